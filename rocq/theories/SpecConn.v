(** Meaning of addresses, for C77, C84, C85. *)
From Verif Require Import Base ConnAddr.

(** ** Schemes (RFC 3986, 3.1): a letter, then letters, digits, "+", "-", "." *)
Definition upper_letter (b : byte) : Prop := (65 <= b2n b <= 90)%N.
(** Letters a-z. *)
Definition lower_letter (b : byte) : Prop := (97 <= b2n b <= 122)%N.
(** Bytes of a scheme. *)
Definition scheme_byte (b : byte) : Prop :=
  upper_letter b \/ lower_letter b \/ (48 <= b2n b <= 57)%N \/ b = "+"%byte \/ b = "-"%byte \/ b = "."%byte.
(** A scheme in lower case. *)
Definition scheme_text (s : bytes) : Prop :=
  Forall scheme_byte s /\ match s with [] => False | b :: _ => upper_letter b \/ lower_letter b end.
(** equal up to the case of letters of the first *)
Definition lowers (a b : bytes) : Prop := Forall2 (fun x y => (upper_letter x /\ b2n y = b2n x + 32)%N \/ (~ upper_letter x /\ x = y)) a b.
(** the address starts with the scheme [s], written in any case *)
Definition has_scheme (addr s : bytes) : Prop :=
  exists w rest, addr = w ++ B ":" ++ rest /\ scheme_text w /\ lowers w s.

(** url.Parse reports the scheme of the text, in lower case, and the empty scheme if it has none *)
Definition reports_scheme (parse : bytes -> res url) : Prop :=
  forall addr u, parse addr = Ok u -> has_scheme addr (u_scheme u) \/ (u_scheme u = [] /\ forall s, ~ has_scheme addr s).

(** Schemes of ADC. *)
Definition adc_schemes : list bytes := [B "adc"; B "adcs"].
(** Schemes of NMDC. *)
Definition nmdc_schemes : list bytes := [B "dchub"; B "nmdcs"].

(** ** Hosts and ports *)
Definition plain (s : bytes) : Prop := forall b, In b s -> b <> ":"%byte /\ b <> "["%byte /\ b <> "]"%byte.
(** no brackets; colons are allowed *)
Definition bracketed (s : bytes) : Prop := forall b, In b s -> b <> "["%byte /\ b <> "]"%byte.
(** A host with a port. *)
Definition host_port (hp h p : bytes) : Prop :=
  plain p /\ ((plain h /\ hp = h ++ B ":" ++ p) \/ (bracketed h /\ hp = B "[" ++ h ++ B "]:" ++ p)).
(** A host without a port. *)
Definition bare_host (hp h : bytes) : Prop :=
  (plain h /\ hp = h) \/ (bracketed h /\ hp = B "[" ++ h ++ B "]").

(** [p'] is [p] without the slashes at its end *)
Definition no_slash_end (p p' : bytes) : Prop :=
  (exists n, p = p' ++ repeat "/"%byte n) /\ (forall q, p' <> q ++ B "/").

(** What URL.String has to do with url.Parse: the text of an address with a host starts with
    scheme and "://" and is parsed to an address with the same parts and the same text. *)
Definition prints (parse : bytes -> res url) (url_string : url -> bytes) : Prop :=
  forall u, In (u_scheme u) (adc_schemes ++ nmdc_schemes) -> u_host u <> [] -> (exists a u0, parse a = Ok u0 /\ u_host u = u_host u0 /\ u_rest u = u_rest u0 /\ no_slash_end (u_path u0) (u_path u)) ->
  (exists t, url_string u = u_scheme u ++ B "://" ++ t) /\
  exists u', parse (url_string u) = Ok u' /\ u_scheme u' = u_scheme u /\ u_host u' = u_host u /\ u_path u' = u_path u /\ url_string u' = url_string u.
