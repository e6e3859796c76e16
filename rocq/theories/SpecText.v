(** Independent specifications for numbers and text: nothing in this file refers to
    the functions of the model, only to byte lists and the type [codec] of
    (optional) text transformations. *)
From Verif Require Import Base.
Local Open Scope N_scope.

(** ** Numbers *)

(** ASCII digit *)
Definition digit_char (c : byte) : Prop := 48 <= b2n c <= 57.

(** Value of a digit string, most significant digit first. *)
Definition dec_value (d : bytes) : N := fold_left (fun a c => 10 * a + (b2n c - 48)) d 0.

(** [d] is a non-empty string of digits with value [v]. *)
Definition decimal (d : bytes) (v : N) : Prop := d <> [] /\ Forall digit_char d /\ v = dec_value d.

(** [s] is an optionally signed decimal with value [z]. *)
Definition signed_decimal (s : bytes) (z : Z) : Prop :=
  exists d v, decimal d v /\
    (s = d /\ z = Z.of_N v \/ s = "+"%byte :: d /\ z = Z.of_N v \/ s = "-"%byte :: d /\ z = (- Z.of_N v)%Z).

(** [s] is [d] with spaces around. *)
Definition padded (s d : bytes) : Prop :=
  exists i j, s = repeat " "%byte i ++ d ++ repeat " "%byte j.

(** ** UTF-8 *)

(** Unicode scalar values *)
Definition scalar (r : N) : Prop := r < 0xD800 \/ 0xE000 <= r <= 0x10FFFF.

(** The UTF-8 encoding form (Unicode standard, table 3-6). *)
Definition utf8_of (r : N) : bytes :=
  if r <? 0x80 then [n2b r]
  else if r <? 0x800 then [n2b (0xC0 + r / 64); n2b (0x80 + r mod 64)]
  else if r <? 0x10000 then
    [n2b (0xE0 + r / 4096); n2b (0x80 + (r / 64) mod 64); n2b (0x80 + r mod 64)]
  else [n2b (0xF0 + r / 262144); n2b (0x80 + (r / 4096) mod 64);
        n2b (0x80 + (r / 64) mod 64); n2b (0x80 + r mod 64)].

(** A valid UTF-8 text. *)
Definition utf8_text (s : bytes) : Prop := exists rs, Forall scalar rs /\ s = flat_map utf8_of rs.

(** ** NMDC text *)

(** [p] is a substring of [s]. *)
Definition substring (p s : bytes) : Prop := exists a r, s = a ++ p ++ r.

(** The legacy escape sequences of the NMDC protocol. *)
Definition legacy_seqs : list bytes :=
  [B "/%DCN000%/"; B "/%DCN005%/"; B "/%DCN036%/"; B "/%DCN096%/"; B "/%DCN124%/"; B "/%DCN126%/"].
(** No legacy escape sequence occurs. *)
Definition no_legacy (s : bytes) : Prop := forall p, In p legacy_seqs -> ~ substring p s.

(** A text codec: [None] means that the connection uses UTF-8. *)
Definition encodes_to (c : option (bytes -> option bytes)) (s w : bytes) : Prop :=
  match c with None => w = s | Some f => f s = Some w end.

(** Text [s] is represented by [w] in the encoding of the connection and the decoder of
    the other side understands it. *)
Definition transcodes (enc dec : option (bytes -> option bytes)) (s w : bytes) : Prop :=
  encodes_to enc s w /\ encodes_to dec w s /\ utf8_text s.

(** A text that can be carried by an NMDC String. *)
Definition string_text (enc dec : option (bytes -> option bytes)) (s w : bytes) : Prop :=
  transcodes enc dec s w /\ ~ In x00 w /\ no_legacy w.

(** Length of a name after HTML escaping. *)
Definition name_wire_len (w : bytes) : N :=
  fold_right (fun c n =>
    n + (if (b2n c =? 38) then 5                              (* & -> &amp; *)
         else if (b2n c =? 60) || (b2n c =? 62) then 4        (* < > -> &lt; &gt; *)
         else if (b2n c =? 124) then 6                        (* | -> &#124; *)
         else 1)) 0 w.

(** A text that can be carried by an NMDC Name. *)
Definition name_text (enc dec : option (bytes -> option bytes)) (s w : bytes) : Prop :=
  transcodes enc dec s w /\ N.of_nat (length s) <= 256 /\ name_wire_len w <= 256 /\
  (~ In "$"%byte w /\ ~ In x00 w /\ ~ In x0d w /\ ~ In x0a w /\ ~ In x09 w) /\ no_legacy w.

(** The text representations: each special byte is replaced by its entity. *)
Definition entity_string (c : byte) : bytes :=
  match c with
  | "&"%byte => B "&amp;" | "$"%byte => B "&#36;" | "|"%byte => B "&#124;" | _ => [c]
  end.
(** The form of a byte inside of a name. *)
Definition entity_name (c : byte) : bytes :=
  match c with
  | "&"%byte => B "&amp;" | "<"%byte => B "&lt;" | ">"%byte => B "&gt;" | "|"%byte => B "&#124;" | _ => [c]
  end.
