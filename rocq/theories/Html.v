(** html.UnescapeString of the Go standard library, called by nmdc/types.go:60. *)
From Verif Require Import Base Utf8 HtmlTable.

(** Lookup in the maps of package html, used by html.UnescapeString (nmdc/types.go:60) *)
Fixpoint assoc {A} (k : bytes) (l : list (bytes * A)) : option A :=
  match l with
  | [] => None
  | (k', v) :: r => if bytes_eqb k k' then Some v else assoc k r
  end.

(** html.entity (one code point) and html.entity2 (two code points)
    (html.UnescapeString, nmdc/types.go:60). *)
Definition entity1 (name : bytes) : option N :=
  match assoc name entity_table with Some [x] => Some x | _ => None end.
(** html.entity2, html.UnescapeString, nmdc/types.go:60 *)
Definition entity2 (name : bytes) : option (N * N) :=
  match assoc name entity_table with Some [x; y] => Some (x, y) | _ => None end.

(** html.replacementTable: Windows-1252 meaning of 0x80..0x9F (html.UnescapeString, nmdc/types.go:60). *)
Definition replacement_table : list N :=
  [8364; 129; 8218; 402; 8222; 8230; 8224; 8225; 710; 8240; 352; 8249; 338; 141; 381; 143;
   144; 8216; 8217; 8220; 8221; 8226; 8211; 8212; 732; 8482; 353; 8250; 339; 157; 382; 376]%N.

(** Go rune arithmetic is 32-bit and wraps (html.UnescapeString, nmdc/types.go:60). *)
Definition wrap32 (z : Z) : Z :=
  let m := (z mod 4294967296)%Z in if (m <? 2147483648)%Z then m else (m - 4294967296)%Z.

(** Letters, html.UnescapeString, nmdc/types.go:60 *)
Definition is_alpha (c : byte) : bool :=
  let n := b2n c in ((65 <=? n) && (n <=? 90) || (97 <=? n) && (n <=? 122))%N%bool.
(** Decimal digits, html.UnescapeString, nmdc/types.go:60 *)
Definition is_dec (c : byte) : bool := let n := b2n c in ((48 <=? n) && (n <=? 57))%N%bool.

(** Value of a decimal or hexadecimal digit (html.UnescapeString, nmdc/types.go:60). *)
Definition entity_digit (hex : bool) (c : byte) : option Z :=
  let n := Z.of_N (b2n c) in
  if is_dec c then Some (n - 48)%Z
  else if hex then
    if ((97 <=? n) && (n <=? 102))%Z%bool then Some (n - 87)%Z
    else if ((65 <=? n) && (n <=? 70))%Z%bool then Some (n - 55)%Z
    else None
  else None.

(** Digit loop of html.unescapeEntity: accumulated value and index after it
    (called through nmdc/types.go:60). *)
Fixpoint num_loop (hex : bool) (x : Z) (i : nat) (t : bytes) : Z * nat :=
  match t with
  | [] => (x, i)
  | c :: t' =>
      match entity_digit hex c with
      | Some d => num_loop hex (wrap32 ((if hex then 16 else 10) * x + d)) (S i) t'
      | None => (x, if beq c ";" then S i else i)
      end
  end.

(** Name loop of html.unescapeEntity: index after the name (called through nmdc/types.go:60). *)
Fixpoint name_loop (i : nat) (t : bytes) : nat :=
  match t with
  | [] => i
  | c :: t' => if (is_alpha c || is_dec c)%bool then name_loop (S i) t'
               else if beq c ";" then S i else i
  end.

(** utf8.EncodeRune of a possibly negative rune (html.UnescapeString, nmdc/types.go:60). *)
Definition encode_rune_z (x : Z) : bytes :=
  if (x <? 0)%Z then encode_rune rune_error else encode_rune (Z.to_N x).

(** Replacement of the numeric value (html.UnescapeString, nmdc/types.go:60). *)
Definition numeric_rune (x : Z) : Z :=
  if ((128 <=? x) && (x <=? 159))%Z%bool then
    Z.of_N (nth (Z.to_nat (x - 128)) replacement_table 0%N)
  else if ((x =? 0) || ((55296 <=? x) && (x <=? 57343)) || (1114111 <? x))%Z%bool then
    Z.of_N rune_error
  else x.

(** longestEntityWithoutSemicolon (html.UnescapeString, nmdc/types.go:60). *)
Definition longest_entity : nat := 6.

(** for j := maxLen; j > 1; j-- (html.UnescapeString, nmdc/types.go:60). *)
Fixpoint prefix_entity (j : nat) (name : bytes) : option (bytes * nat) :=
  match j with
  | O | S O => None
  | S j' => match entity1 (firstn j name) with
            | Some x => Some (encode_rune x, S j)
            | None => prefix_entity j' name
            end
  end.

(** html.unescapeEntity on the text [s] starting with '&': replacement and number
    of bytes consumed (attribute = false) (html.UnescapeString, nmdc/types.go:60). *)
Definition unescape_entity (s : bytes) : bytes * nat :=
  let amp := (firstn 1 s, 1) in
  if (length s <=? 1)%nat then amp
  else if beq (nth 1 s x00) "#" then
    if (length s <=? 3)%nat then amp
    else
      let c := nth 2 s x00 in
      let hex := (beq c "x" || beq c "X")%bool in
      let i0 := if hex then 3 else 2 in
      let (x, i) := num_loop hex 0 i0 (skipn i0 s) in
      if (i <=? 3)%nat then amp
      else (encode_rune_z (numeric_rune x), i)
  else
    let i := name_loop 1 (skipn 1 s) in
    let name := firstn (i - 1) (skipn 1 s) in
    let copy := (firstn i s, i) in
    match name with
    | [] => copy
    | _ =>
        match entity1 name with
        | Some x => (encode_rune x, i)
        | None =>
            match entity2 name with
            | Some (x, y) => (encode_rune x ++ encode_rune y, i)
            | None =>
                match prefix_entity (Nat.min (length name - 1) longest_entity) name with
                | Some r => r
                | None => copy
                end
            end
        end
    end.

(** html.UnescapeString.  The Go code jumps to the next '&' with IndexByte and
    works in place; here other bytes are copied one by one.  Fuel: every round
    consumes at least one byte (html.UnescapeString, nmdc/types.go:60). *)
Fixpoint html_unescape_fuel (f : nat) (s : bytes) : bytes :=
  match f with
  | O => []
  | S f' =>
      match s with
      | [] => []
      | c :: t =>
          if beq c "&" then
            let (o, n) := unescape_entity s in
            o ++ html_unescape_fuel f' (skipn n s)
          else c :: html_unescape_fuel f' t
      end
  end.
(** html.UnescapeString(s), nmdc/types.go:60 *)
Definition html_unescape (s : bytes) : bytes := html_unescape_fuel (length s) s.
