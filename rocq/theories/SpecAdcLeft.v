(** Specification of what an ADC message holds after decoding into it failed. *)
From Verif Require Import Base SpecText SpecHash AdcValue AdcMessage AdcPacket SpecAdc SpecAdcMessage SpecAdcRead.

(** [groups x b]: the complete groups of eight symbols that a text starts with spell [b]. *)
Definition groups (x b : bytes) : Prop :=
  exists t tail, unbroken x = t ++ tail /\ spells t (flat_map bits8 b) /\ length t = 8 * (length t / 8) /\ ~ starts_with_symbols 8 tail.
(** [decoded_part x b]: what is decoded of a text: all of it if it is well-formed, otherwise its complete groups. *)
Definition decoded_part (x b : bytes) : Prop :=
  base32_read x b \/ (forall b', ~ base32_read x b') /\ groups x b.
(** [overwritten old b v]: the first bytes are replaced. *)
Definition overwritten (old b v : bytes) : Prop := v = b ++ skipn (length b) old.

Section Left.
Variable pf : bytes -> float_result.

(** [value_stuck k x old v]: the text [x] can not be read, and a field that holds [old] holds [v] afterwards: the same,
    but for a hash. *)
Definition stuck_value (k : kind) (x : bytes) : val k -> val k -> Prop :=
  match k as k0 return val k0 -> val k0 -> Prop with
  | KTth => fun old v => exists b, decoded_part x b /\ overwritten old b v
  | _ => fun old v => v = old
  end.
(** A positional text that stops the decoder. *)
Definition value_stuck (k : kind) (x : bytes) (old v : val k) : Prop :=
  (forall y, ~ value_read pf k x old y) /\ ~ value_crash k x /\ stuck_value k x old v.
(** The texts after the name of a field that stop the decoder. *)
Definition named_stuck (k : kind) (vs : list bytes) (old v : val k) : Prop :=
  (forall y, ~ named_read pf k vs old y) /\ ~ named_crash k vs /\ exists x more, vs = x :: more /\ stuck_value k x old v.

(** The fields up to the one that can not be read are decoded, those after it stay. *)
Fixpoint fields_stuck (fs : list field) (ws : list bytes) : vals fs -> vals fs -> Prop :=
  match fs with
  | [] => fun _ _ => False
  | f :: r => fun old v =>
      (f_tag f = B "#" /\ exists w ws', ws = w :: ws' /\
        (value_stuck (f_kind f) w (fst old) (fst v) /\ snd v = snd old \/
         value_read pf (f_kind f) w (fst old) (fst v) /\ fields_stuck r ws' (snd old) (snd v))) \/
      (f_tag f <> B "#" /\
        (named_stuck (f_kind f) (values (f_tag f) ws) (fst old) (fst v) /\ snd v = snd old \/
         named_read pf (f_kind f) (values (f_tag f) ws) (fst old) (fst v) /\ fields_stuck r ws (snd old) (snd v)))
  end.

(** The last change of a feature. *)
Fixpoint last_change (k : bytes) (l : list (bytes * bool)) : option bool :=
  match l with
  | [] => None
  | (k', b) :: r => match last_change k r with Some b' => Some b' | None => if bytes_eqb k k' then Some b else None end
  end.
(** [features_stuck ws old m]: features are removed and then added up to the first that does not have four bytes. *)
Definition features_stuck (ws : list bytes) (old m : list (bytes * bool)) : Prop :=
  exists add rm done bad rest,
    Forall2 denotes_text (values (B "AD") ws) add /\ Forall2 denotes_text (values (B "RM") ws) rm /\
    map (fun f => (f, false)) rm ++ map (fun f => (f, true)) add = done ++ bad :: rest /\
    Forall (fun c => length (fst c) = 4) done /\ length (fst bad) <> 4 /\ distinct m /\
    forall k b, In (k, b) m <-> last_change k done = Some b \/ (last_change k done = None /\ In (k, b) old).

(** [number_left x z]: the number ParseInt returns beside an error. Digits whose value does not fit into 64 bits, or not
    into an int64 if nothing follows them, give the nearest int64, all else zero. *)
Definition too_large (x : bytes) (neg : Prop) : Prop :=
  exists sign ds rest, x = sign ++ ds ++ rest /\ (sign = [] \/ sign = B "+" \/ sign = B "-") /\ (neg <-> sign = B "-") /\
    ds <> [] /\ Forall digit_char ds /\ ((2 ^ 64 <= dec_value ds)%N \/ rest = [] /\ forall z, signed_decimal x z -> ~ int64 z).
(** The number left. *)
Definition number_left (x : bytes) (z : Z) : Prop :=
  too_large x True /\ z = (- 2 ^ 63)%Z \/ too_large x False /\ z = (2 ^ 63 - 1)%Z \/
  ~ too_large x True /\ ~ too_large x False /\ z = 0%Z.
(** Not a number of 64 bits. *)
Definition no_number (x : bytes) : Prop := forall z, signed_decimal x z -> ~ int64 z.

(** [get_stuck s old g]: what precedes the part that is missing or wrong is assigned, a wrong number too. *)
Inductive get_stuck (s : bytes) (old : getreq) : getreq -> Prop :=
| gs_type : ~ In " "%byte s -> get_stuck s old old
| gs_path t x : s = t ++ B " " ++ x -> ~ In " "%byte t -> ~ In " "%byte x -> forall t', denotes_text t t' ->
    get_stuck s old {| g_type := t'; g_path := g_path old; g_start := g_start old; g_bytes := g_bytes old; g_comp := g_comp old |}
| gs_start t p x : s = t ++ B " " ++ p ++ B " " ++ x -> ~ In " "%byte t -> ~ In " "%byte p -> ~ In " "%byte x ->
    forall t' p', denotes_text t t' -> denotes_text p p' ->
    get_stuck s old {| g_type := t'; g_path := p'; g_start := g_start old; g_bytes := g_bytes old; g_comp := g_comp old |}
| gs_start_bad t p a x : s = t ++ B " " ++ p ++ B " " ++ a ++ B " " ++ x -> ~ In " "%byte t -> ~ In " "%byte p -> ~ In " "%byte a ->
    no_number a -> forall t' p' z, denotes_text t t' -> denotes_text p p' -> number_left a z ->
    get_stuck s old {| g_type := t'; g_path := p'; g_start := z; g_bytes := g_bytes old; g_comp := g_comp old |}
| gs_bytes_bad t p a b tail : s = t ++ B " " ++ p ++ B " " ++ a ++ B " " ++ b ++ tail ->
    ~ In " "%byte t -> ~ In " "%byte p -> ~ In " "%byte a -> ~ In " "%byte b -> (tail = [] \/ exists y, tail = " "%byte :: y) ->
    no_number b -> forall t' p' n z, denotes_text t t' -> denotes_text p p' -> signed_decimal a n -> int64 n -> number_left b z ->
    get_stuck s old {| g_type := t'; g_path := p'; g_start := n; g_bytes := z; g_comp := g_comp old |}
| gs_tail t p a b y : s = t ++ B " " ++ p ++ B " " ++ a ++ B " " ++ b ++ B " " ++ y ->
    ~ In " "%byte t -> ~ In " "%byte p -> ~ In " "%byte a -> ~ In " "%byte b -> y <> [] -> y <> B "ZL1" ->
    forall t' p' n z, denotes_text t t' -> denotes_text p p' -> signed_decimal a n -> int64 n -> signed_decimal b z -> int64 z ->
    get_stuck s old {| g_type := t'; g_path := p'; g_start := n; g_bytes := z; g_comp := g_comp old |}.

(** [failed_into s old m]: the payload is refused, and a message that held [old] holds [m]. *)
Inductive failed_into (s : bytes) : amsg -> amsg -> Prop :=
| fi_struct t ws old v : separated s ws -> fields_stuck (fields_of t) ws old v -> failed_into s (AStruct t old) (AStruct t v)
| fi_sup ws old m : separated s ws -> features_stuck ws old m -> failed_into s (ASup old) (ASup m)
| fi_sta old : (forall st, ~ status_read s st) -> failed_into s (ASta old) (ASta old)
| fi_sid old : length s <> 4 -> failed_into s (ASid old) (ASid old)
| fi_gpa old b : (forall b', ~ base32_read s b') -> groups s b -> failed_into s (AGpa old) (AGpa (b ++ repeat x00 (length s * 5 / 8 - length b)))
| fi_get old g : get_stuck s old g -> failed_into s (AGet old) (AGet g)
| fi_snd old g : get_stuck s old g -> failed_into s (ASnd old) (ASnd g)
| fi_mod old ws : parts " " s ws -> s <> [] -> Exists (fun w => length w < 2) ws -> failed_into s (AMod old) (AMod []).
End Left.
