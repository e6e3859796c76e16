(** UTF-8 (package unicode/utf8) and unicode.IsSpace, used by nmdc/types.go:114,148,
    nmdc/msg_chat.go:84-85, nmdc/reader.go:300-302.  Shifts and masks of the Go code are written
    as div/mod. *)
From Verif Require Import Base.
Local Open Scope N_scope.

(** Continuation byte 0x80..0xBF
    (utf8.Valid and utf8.DecodeRune called in nmdc/types.go:114,148, nmdc/msg_chat.go:84). *)
Definition is_cont (b : byte) : bool := (128 <=? b2n b) && (b2n b <=? 191).

(** Byte sequences accepted by the [first]/[acceptRanges] tables of unicode/utf8
    for two, three and four byte runes (utf8.Valid called in nmdc/types.go:114,148). *)
Definition ok2 (a b : byte) : bool := (194 <=? b2n a) && (b2n a <=? 223) && is_cont b.
(** Three byte forms, utf8.Valid called in nmdc/types.go:114,148 *)
Definition ok3 (a b c : byte) : bool :=
  (224 <=? b2n a) && (b2n a <=? 239) && is_cont b && is_cont c
  && (if b2n a =? 224 then 160 <=? b2n b else true)
  && (if b2n a =? 237 then b2n b <=? 159 else true).
(** Four byte forms, utf8.Valid called in nmdc/types.go:114,148 *)
Definition ok4 (a b c d : byte) : bool :=
  (240 <=? b2n a) && (b2n a <=? 244) && is_cont b && is_cont c && is_cont d
  && (if b2n a =? 240 then 144 <=? b2n b else true)
  && (if b2n a =? 244 then b2n b <=? 143 else true).

(** Value of a two byte form, utf8.DecodeRune called in nmdc/msg_chat.go:84 *)
Definition rune2 (a b : byte) : N := (b2n a - 192) * 64 + (b2n b - 128).
(** Value of a three byte form, as above (nmdc/msg_chat.go:84) *)
Definition rune3 (a b c : byte) : N :=
  (b2n a - 224) * 4096 + (b2n b - 128) * 64 + (b2n c - 128).
(** Value of a four byte form, as above (nmdc/msg_chat.go:84) *)
Definition rune4 (a b c d : byte) : N :=
  (b2n a - 240) * 262144 + (b2n b - 128) * 4096 + (b2n c - 128) * 64 + (b2n d - 128).

(** utf8.DecodeRune: [None] stands for the result (RuneError, 0 or 1) on empty or
    invalid input (nmdc/msg_chat.go:84). *)
Definition decode1 (s : bytes) : option (N * nat) :=
  match s with
  | [] => None
  | a :: s1 =>
      if b2n a <? 128 then Some (b2n a, 1%nat) else
      match s1 with
      | [] => None
      | b :: s2 =>
          if ok2 a b then Some (rune2 a b, 2%nat) else
          match s2 with
          | [] => None
          | c :: s3 =>
              if ok3 a b c then Some (rune3 a b c, 3%nat) else
              match s3 with
              | [] => None
              | d :: _ => if ok4 a b c d then Some (rune4 a b c d, 4%nat) else None
              end
          end
      end
  end.

(** utf8.RuneError, returned by DecodeRune (nmdc/msg_chat.go:84) *)
Definition rune_error : N := 65533.

(** utf8.DecodeRune(p) (nmdc/msg_chat.go:84) *)
Definition decode_rune (s : bytes) : N * nat :=
  match decode1 s with
  | Some p => p
  | None => (rune_error, match s with [] => 0%nat | _ => 1%nat end)
  end.

(** utf8.Valid(p) (nmdc/types.go:114,148) *)
Fixpoint utf8_valid (s : bytes) : bool :=
  match s with
  | [] => true
  | a :: s1 =>
      if b2n a <? 128 then utf8_valid s1 else
      match s1 with
      | [] => false
      | b :: s2 =>
          if ok2 a b then utf8_valid s2 else
          match s2 with
          | [] => false
          | c :: s3 =>
              if ok3 a b c then utf8_valid s3 else
              match s3 with
              | [] => false
              | d :: s4 => if ok4 a b c d then utf8_valid s4 else false
              end
          end
      end
  end.

(** utf8.EncodeRune; surrogates and values above 0x10FFFF become U+FFFD
    (called through bytes.Map (nmdc/reader.go:300-302) and html.UnescapeString (nmdc/types.go:60)). *)
Definition is_scalar (r : N) : bool := (r <? 55296) || ((57343 <? r) && (r <=? 1114111)).
(** utf8.EncodeRune of a valid rune (nmdc/reader.go:300-302) *)
Definition encode_scalar (r : N) : bytes :=
  if r <? 128 then [n2b r]
  else if r <? 2048 then [n2b (192 + r / 64); n2b (128 + r mod 64)]
  else if r <? 65536 then
    [n2b (224 + r / 4096); n2b (128 + (r / 64) mod 64); n2b (128 + r mod 64)]
  else
    [n2b (240 + r / 262144); n2b (128 + (r / 4096) mod 64);
     n2b (128 + (r / 64) mod 64); n2b (128 + r mod 64)].
(** utf8.EncodeRune (nmdc/reader.go:300-302, nmdc/types.go:60) *)
Definition encode_rune (r : N) : bytes :=
  if is_scalar r then encode_scalar r else encode_scalar rune_error.

(** unicode.IsSpace (nmdc/msg_chat.go:85) *)
Definition is_space_rune (r : N) : bool :=
  if r <=? 255 then
    (r =? 9) || (r =? 10) || (r =? 11) || (r =? 12) || (r =? 13) || (r =? 32)
    || (r =? 133) || (r =? 160)
  else
    (r =? 5760) || ((8192 <=? r) && (r <=? 8202)) || (r =? 8232) || (r =? 8233)
    || (r =? 8239) || (r =? 8287) || (r =? 12288).

(** bytes.Map with the identity function (nmdc/reader.go:300-302): every invalid byte is
    replaced by U+FFFD.  Fuel: one round per byte. *)
Fixpoint to_valid_fuel (f : nat) (s : bytes) : bytes :=
  match f with
  | O => []
  | S f' =>
      match s with
      | [] => []
      | _ => let (r, n) := decode_rune s in
             encode_rune r ++ to_valid_fuel f' (skipn n s)
      end
  end.
(** bytes.Map with the identity function, nmdc/reader.go:300-302 *)
Definition to_valid (s : bytes) : bytes := to_valid_fuel (length s) s.
