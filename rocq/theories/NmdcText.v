(** NMDC text values: nmdc/types.go and the escaping part of nmdc/utils.go. *)
From Verif Require Import Base Utf8 Html.

(** nmdc/message.go:14 *)
Definition delimiter : byte := "|"%byte.

(** nmdc/reader.go:14 *)
Definition max_name : nat := 256.

(** TextEncoder / TextDecoder (nmdc/message.go:21-24): [None] is the nil pointer
    (connection uses UTF-8), [Some f] a golang.org/x/text transformation which may fail. *)
Definition codec : Type := option (bytes -> option bytes).

(** [if enc != nil { str, err = enc.String(str) }] (nmdc/types.go:90-96) *)
Definition run_codec (c : codec) (s : bytes) : res bytes :=
  match c with
  | None => Ok s
  | Some f => match f s with Some r => Ok r | None => Err (EText "transform") end
  end.

(** nmdc/types.go:16-18: characters rejected in names *)
Definition invalid_chars_name : bytes := B "$" ++ [x00; x0d; x0a; x09].
(** bytes.ContainsAny(data, invalidCharsName), nmdc/types.go:14-24,103 *)
Definition invalid_char_name (c : byte) : bool := existsb (beq c) invalid_chars_name.

(** nmdc/types.go:26-33 *)
Definition legacy_table : list (bytes * byte) :=
  [ (B "/%DCN000%/", x00); (B "/%DCN005%/", x05); (B "/%DCN036%/", "$"%byte);
    (B "/%DCN096%/", "`"%byte); (B "/%DCN124%/", delimiter); (B "/%DCN126%/", "~"%byte) ].

(** First table entry matching at the beginning of [s]
    (strings.Replacer.Replace, one position: nmdc/types.go:26-33,57). *)
Fixpoint legacy_match (t : list (bytes * byte)) (s : bytes) : option (bytes * byte) :=
  match t with
  | [] => None
  | (p, r) :: t' => if has_prefix p s then Some (p, r) else legacy_match t' s
  end.

(** legacyUnescaper.Replace (strings.Replacer: leftmost match, no rescanning).
    Fuel: every round consumes at least one byte (strings.Replacer.Replace, nmdc/types.go:57). *)
Fixpoint legacy_fuel (f : nat) (s : bytes) : bytes :=
  match f with
  | O => []
  | S f' =>
      match legacy_match legacy_table s with
      | Some (p, r) => r :: legacy_fuel f' (skipn (length p) s)
      | None => match s with
                | [] => []
                | c :: t => c :: legacy_fuel f' t
                end
      end
  end.
(** legacyUnescaper.Replace, nmdc/types.go:26-33,57 *)
Definition legacy_unescape (s : bytes) : bytes := legacy_fuel (length s) s.

(** nmdc/types.go:35-39 *)
Definition esc_char_string (c : byte) : bytes :=
  if beq c "&" then B "&amp;"
  else if beq c "$" then B "&#36;"
  else if beq c delimiter then B "&#124;"
  else [c].

(** nmdc/types.go:41-47 *)
Definition esc_char_name (c : byte) : bytes :=
  if beq c "&" then B "&amp;"
  else if beq c "<" then B "&lt;"
  else if beq c ">" then B "&gt;"
  else if beq c "$" then B "&#36;"
  else if beq c delimiter then B "&#124;"
  else [c].

(** nmdc/types.go:49-63 *)
Definition unescape_bytes (b : bytes) : bytes :=
  let h := contains_byte "&" b in
  let d := match index (B "/%DCN") b with Some _ => true | None => false end in
  if (negb h && negb d)%bool then b
  else
    let s := if d then legacy_unescape b else b in
    if h then html_unescape s else s.

(** nmdc/utils.go:131-150.  Runs of ordinary bytes are copied byte by byte here. *)
Fixpoint escape_string (s : bytes) : res bytes :=
  match s with
  | [] => Ok []
  | c :: t => if beq c x00 then Err (EText "invalid characters in string")
              else do r <- escape_string t; Ok (esc_char_string c ++ r)
  end.

(** nmdc/utils.go:152-171 *)
Fixpoint escape_name (s : bytes) : res bytes :=
  match s with
  | [] => Ok []
  | c :: t => if invalid_char_name c then Err (EText "invalid characters in name")
              else do r <- escape_name t; Ok (esc_char_name c ++ r)
  end.

(** Name.MarshalNMDC, nmdc/types.go:85-98 *)
Definition name_marshal (enc : codec) (s : bytes) : res bytes :=
  if (max_name <? length s)%nat then Err (EText "name is too long")
  else do str <- run_codec enc s; escape_name str.

(** Common tail of Name/String.UnmarshalNMDC, nmdc/types.go:106-118, 140-152 *)
Definition text_unmarshal (dec : codec) (data : bytes) : res bytes :=
  do d <- run_codec dec (unescape_bytes data);
  if utf8_valid d then Ok d else Err (EUnknownEnc d).

(** Name.UnmarshalNMDC, nmdc/types.go:100-119.  bytes.ContainsAny with an ASCII set. *)
Definition name_unmarshal (dec : codec) (data : bytes) : res bytes :=
  if (max_name <? length data)%nat then Err (EText "name is too long")
  else if existsb invalid_char_name data then Err (EText "invalid characters in name")
  else text_unmarshal dec data.

(** String.MarshalNMDC, nmdc/types.go:124-134 *)
Definition string_marshal (enc : codec) (s : bytes) : res bytes :=
  do str <- run_codec enc s; escape_string str.

(** String.UnmarshalNMDC, nmdc/types.go:136-153 *)
Definition string_unmarshal (dec : codec) (data : bytes) : res bytes :=
  if contains_byte x00 data then Err (EText "invalid characters in text")
  else text_unmarshal dec data.
