(** Property theorems C26-C31: NMDC text values and numbers.
    Specifications: SpecText.v, SpecRead.v.  Proofs: NmdcTextFacts.v, NumSpec.v. *)
From Verif Require Import Base Num NumSpec Utf8 NmdcText SpecText SpecNmdc SpecRead NmdcTextFacts HtmlReadFacts.

(** C26: encoded text cannot break out of its field. *)
Theorem C26_string_safe enc s e :
  string_marshal enc s = Ok e -> ~ In "$"%byte e /\ ~ In "|"%byte e /\ ~ In x00 e.
Proof. exact (string_marshal_safe enc s e). Qed.
Print Assumptions C26_string_safe.

Theorem C26_name_safe enc s e :
  name_marshal enc s = Ok e ->
  ~ In "$"%byte e /\ ~ In "|"%byte e /\ ~ In "<"%byte e /\ ~ In ">"%byte e /\
  ~ In x00 e /\ ~ In x0d e /\ ~ In x0a e /\ ~ In x09 e.
Proof. exact (name_marshal_safe enc s e). Qed.
Print Assumptions C26_name_safe.

(** An encoder that maps every byte to '|' followed by '$': the result is still safe. *)
Example C26_instance :
  string_marshal (Some (fun s => Some (flat_map (fun _ => B "|$") s))) (B "ab")
  = Ok (B "&#124;&#36;&#124;&#36;") /\
  name_marshal None (B "a<b>|&") = Ok (B "a&lt;b&gt;&#124;&amp;").
Proof. split; vm_compute; reflexivity. Qed.

(** C27: strings round-trip, and the encoder's output is exactly the entity-escaped text. *)
Theorem C27_string_roundtrip enc dec s w :
  string_text enc dec s w ->
  exists e, string_marshal enc s = Ok e /\ string_unmarshal dec e = Ok s.
Proof. exact (string_roundtrip_spec enc dec s w). Qed.
Print Assumptions C27_string_roundtrip.

Theorem C27_string_encoding enc s e :
  string_marshal enc s = Ok e <->
  exists w, encodes_to enc s w /\ ~ In x00 w /\ e = flat_map entity_string w.
Proof. exact (string_marshal_iff enc s e). Qed.
Print Assumptions C27_string_encoding.

(** The exclusion of legacy sequences is necessary. *)
Theorem C27_legacy_refuted :
  exists s, utf8_text s /\ ~ In x00 s /\
    exists e s', string_marshal None s = Ok e /\ string_unmarshal None e = Ok s' /\ s' <> s.
Proof. exact legacy_not_roundtrip. Qed.
Print Assumptions C27_legacy_refuted.

(** Latin-1 text with all special bytes, e-acute = C3 A9 in UTF-8, E9 on the wire. *)
Example C27_instance :
  let enc s := Some (flat_map (fun c => if beq c xc3 then [] else if beq c xa9 then [xe9] else [c]) s) in
  let dec s := Some (flat_map (fun c => if beq c xe9 then [xc3; xa9] else [c]) s) in
  let s := B "a&b$c|" ++ [xc3; xa9] in
  string_text (Some enc) (Some dec) s (B "a&b$c|" ++ [xe9]).
Proof. exact string_text_instance. Qed.

(** C28: names round-trip. *)
Theorem C28_name_roundtrip enc dec s w :
  name_text enc dec s w ->
  exists e, name_marshal enc s = Ok e /\ name_unmarshal dec e = Ok s.
Proof. exact (name_roundtrip_spec enc dec s w). Qed.
Print Assumptions C28_name_roundtrip.

Theorem C28_name_encoding enc s e :
  name_marshal enc s = Ok e <->
  (N.of_nat (length s) <= 256)%N /\
  exists w, encodes_to enc s w /\
    (~ In "$"%byte w /\ ~ In x00 w /\ ~ In x0d w /\ ~ In x0a w /\ ~ In x09 w) /\ e = flat_map entity_name w.
Proof. exact (name_marshal_iff enc s e). Qed.
Print Assumptions C28_name_encoding.

Example C28_instance : name_text None None (B "<|user|> & co") (B "<|user|> & co").
Proof. exact name_text_instance. Qed.

(** C29: decoded text is valid UTF-8; a failure of this check reports the decoded text. *)
Theorem C29_decoded_text_is_utf8 :
  (forall dec d s, name_unmarshal dec d = Ok s -> utf8_text s) /\
  (forall dec d s, string_unmarshal dec d = Ok s -> utf8_text s) /\
  (forall dec d t, name_unmarshal dec d = Err (EUnknownEnc t) -> ~ utf8_text t /\ exists u, unescaped d u /\ encodes_to dec u t) /\
  (forall dec d t, string_unmarshal dec d = Err (EUnknownEnc t) -> ~ utf8_text t /\ exists u, unescaped d u /\ encodes_to dec u t).
Proof.
  destruct decoded_valid as (H1 & H2 & H3 & H4). split; [exact H1|]. split; [exact H2|].
  split; intros dec d t H; [apply H3 in H|apply H4 in H]; destruct H as [N E]; (split; [exact N|]); exists (unescape_bytes d); (split; [now apply unescaped_iff|exact E]).
Qed.
Print Assumptions C29_decoded_text_is_utf8.

Example C29_instance :
  string_unmarshal None (B "&#8364; /%DCN036%/") = Ok ([xe2; x82; xac] ++ B " $") /\
  string_unmarshal None (B "a" ++ [xff]) = Err (EUnknownEnc (B "a" ++ [xff])) /\
  name_unmarshal (Some (fun _ => Some [xc0; x80])) (B "n") = Err (EUnknownEnc [xc0; x80]).
Proof. repeat split; vm_compute; reflexivity. Qed.

(** C30: unsigned number fields. *)
Theorem C30_unsigned_exact s v :
  parse_uint_trim s = Ok v <-> exists d, padded s d /\ decimal d v /\ (v < 2 ^ 64)%N.
Proof. exact (parse_uint_exact s v). Qed.
Print Assumptions C30_unsigned_exact.

Theorem C30_unsigned_rejects s :
  (~ exists d v, padded s d /\ decimal d v /\ (v < 2 ^ 64)%N) <-> exists e, parse_uint_trim s = Err e.
Proof. exact (parse_uint_rejects s). Qed.
Print Assumptions C30_unsigned_rejects.

Example C30_instance :
  parse_uint_trim (B "  18446744073709551615 ") = Ok 18446744073709551615%N /\
  parse_uint_trim (B "18446744073709551616") = Err (EText "syntax") /\
  parse_uint_trim (B "0000000000000000000000000001") = Ok 1%N.
Proof. repeat split; vm_compute; reflexivity. Qed.

(** C31: signed number fields. *)
Theorem C31_signed_exact s z :
  atoi_trim s = Ok z <-> exists d, padded s d /\ signed_decimal d z /\ (- 2 ^ 63 <= z < 2 ^ 63)%Z.
Proof. exact (atoi_exact s z). Qed.
Print Assumptions C31_signed_exact.

Theorem C31_signed_rejects s :
  (~ exists d z, padded s d /\ signed_decimal d z /\ (- 2 ^ 63 <= z < 2 ^ 63)%Z) <-> exists e, atoi_trim s = Err e.
Proof. exact (atoi_rejects s). Qed.
Print Assumptions C31_signed_rejects.

Example C31_instance :
  atoi_trim (B " -9223372036854775808") = Ok (-9223372036854775808)%Z /\
  atoi_trim (B "+12345678 ") = Ok 12345678%Z /\
  atoi_trim (B "9223372036854775808") = Err (EText "range").
Proof. repeat split; vm_compute; reflexivity. Qed.
