(** Specification of decoding an ADC payload into a message that already holds something. *)
From Verif Require Import Base SpecText SpecHash AdcValue AdcMessage AdcPacket SpecAdc SpecAdcMessage SpecAdcRead.

(** [tagged_list s l]: words separated by single spaces.  Each has at least two bytes; the first two are the
    name of the field and the rest its value, which stays escaped. *)
Definition tagged_list (s : bytes) (l : list (bytes * bytes)) : Prop :=
  s = [] /\ l = [] \/
  s <> [] /\ Forall (fun f => length (fst f) = 2) l /\ parts " " s (map (fun f => fst f ++ snd f) l).

(** [features_into ws old m]: features added or removed by the words take their new state, the others keep theirs. *)
Definition features_into (ws : list bytes) (old m : list (bytes * bool)) : Prop :=
  exists add rm, Forall2 denotes_text (values (B "AD") ws) add /\ Forall2 denotes_text (values (B "RM") ws) rm /\
    Forall (fun f => length f = 4) (add ++ rm) /\ distinct m /\
    forall k b, In (k, b) m <->
      (b = true /\ In k add) \/ (b = false /\ In k rm /\ ~ In k add) \/ (In (k, b) old /\ ~ In k add /\ ~ In k rm).

(** [get_into s old g]: everything is replaced, but compression once asked for stays. *)
Definition get_into (s : bytes) (old g : getreq) : Prop :=
  exists h, get_read s h /\ g_type g = g_type h /\ g_path g = g_path h /\ g_start g = g_start h /\ g_bytes g = g_bytes h /\
    (g_comp g = true <-> g_comp h = true \/ g_comp old = true).

(** [decoded_into s old m]: a message that holds [old] holds [m] after the payload [s] has been decoded into it. *)
Inductive decoded_into (pf : bytes -> float_result) (s : bytes) : amsg -> amsg -> Prop :=
| di_struct t ws old v : separated s ws -> fields_read pf (fields_of t) ws old v -> decoded_into pf s (AStruct t old) (AStruct t v)
| di_sup ws old m : separated s ws -> features_into ws old m -> decoded_into pf s (ASup old) (ASup m)
| di_sta old st : status_read s st -> decoded_into pf s (ASta old) (ASta st)
| di_zon : decoded_into pf s AZon AZon
| di_zof : decoded_into pf s AZof AZof
| di_sid old : length s = 4 -> decoded_into pf s (ASid old) (ASid s)
| di_gpa old salt : salt_read s salt -> decoded_into pf s (AGpa old) (AGpa salt)
| di_get old g : get_into s old g -> decoded_into pf s (AGet old) (AGet g)
| di_snd old g : get_into s old g -> decoded_into pf s (ASnd old) (ASnd g)
| di_mod old l : tagged_list s l -> decoded_into pf s (AMod old) (AMod l)
| di_raw t old : decoded_into pf s (ARaw t old) (ARaw t s).

(** Only structures crash the decoder. *)
Definition crash_into (pf : bytes -> float_result) (s : bytes) (old : amsg) : Prop :=
  exists t v ws, old = AStruct t v /\ separated s ws /\ fields_crash pf (fields_of t) ws v.

(** What Go's types ensure: identifiers and hashes are arrays, maps have different keys. *)
Definition typed (m : amsg) : Prop :=
  match m with
  | AStruct t v => array_sizes (fields_of t) v
  | ASup f => distinct f
  | _ => True
  end.
