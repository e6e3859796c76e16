(** Independent specification of NMDC frames: which parts of a message are sent without any
    escaping, and what a frame looks like. *)
From Verif Require Import Base NmdcText NmdcChat NmdcHub NmdcFiles NmdcUser NmdcMessage.

(** The command name and the parts of the payload which are copied verbatim. *)
Definition raw_fields (m : msg) : list bytes :=
  match m with
  | MText _ s => [s]
  | MCtm m => [ct_address m]
  | MFailOver l => l
  | MLock m => [lk_lock m; lk_pk m; lk_ref m]
  | MHubInfo m => [hi_host m; hi_soft m; hi_vers m; hi_encoding m]
  | MSearch m => [se_address m]
  | MSR m => [sr_hubaddr m]
  | MSA m => [sa_address m]
  | MMyInfo m => [mi_client m; mi_version m; [mi_mode m]; [mi_flag m]] ++ map fst (mi_extra m) ++ map snd (mi_extra m)
  | MUserIP l => map snd l
  | MSupports l => l
  | MRaw t d => [t; d]
  | _ => []
  end.

(** The hashes in a message have the size of the Go array. *)
Definition sized (m : msg) : Prop :=
  match m with
  | MSearch m => match se_tth m with Some h => length h = 24 | None => True end
  | MSR m => match sr_tth m with Some h => length h = 24 | None => True end
  | MSA m => length (sa_tth m) = 24
  | MSP m => length (sp_tth m) = 24
  | _ => True
  end.

(** The bytes of a frame with the command [t] (empty for chat) and the payload [p]. *)
Inductive framed : bytes -> bytes -> bytes -> Prop :=
| fr_chat p : p <> [] -> framed [] p (p ++ B "|")
| fr_bare t : t <> [] -> framed t [] (B "$" ++ t ++ B "|")
| fr_args t p : t <> [] -> p <> [] -> framed t p (B "$" ++ t ++ B " " ++ p ++ B "|").

(** ** Decoding into a used message *)

(** Values of the same Go type. *)
Definition same_kind (a b : msg) : Prop :=
  match a, b with
  | MName k _, MName k' _ => k = k'
  | MString k _, MString k' _ => k = k'
  | MNoArgs k, MNoArgs k' => k = k'
  | MText k _, MText k' _ => k = k'
  | MErr k _, MErr k' _ => k = k'
  | MNames k _, MNames k' _ => k = k'
  | MRaw t _, MRaw t' _ => t = t'
  | MChat _, MChat _ | MPm _, MPm _ | MMCTo _, MMCTo _ | MUserCommand _, MUserCommand _
  | MCtm _, MCtm _ | MRevCtm _, MRevCtm _ | MAdcGet _, MAdcGet _ | MAdcSnd _, MAdcSnd _
  | MDirection _, MDirection _ | MFailOver _, MFailOver _ | MLock _, MLock _ | MHubInfo _, MHubInfo _
  | MSearch _, MSearch _ | MSR _, MSR _ | MSA _, MSA _ | MSP _, MSP _ | MMyInfo _, MMyInfo _
  | MUserIP _, MUserIP _ | MSupports _, MSupports _ => True
  | _, _ => False
  end.

(** Fields a line may leave alone have their zero value. *)
Definition unset (m : msg) : Prop :=
  match m with
  | MErr _ e => e = None
  | MChat m => ch_name m = []
  | MUserCommand m => uc_path m = [] /\ uc_command m = []
  | MCtm m => ct_src m = [] /\ ct_secure m = false
  | MAdcGet m => ag_compressed m = false /\ ag_downloaded m = None
  | MAdcSnd m => as_compressed m = false
  | MHubInfo m => hi_vers m = []
  | MSearch m => se_address m = [] /\ se_user m = [] /\ se_pattern m = [] /\ se_tth m = None
  | MSR m => sr_to m = [] /\ sr_hubname m = [] /\ sr_tth m = None
  | _ => True
  end.

(** Types whose decoder sets every field. *)
Definition sets_all (m : msg) : Prop :=
  match m with
  | MErr _ _ | MChat _ | MUserCommand _ | MCtm _ | MAdcGet _ | MAdcSnd _ | MHubInfo _ | MSearch _ | MSR _ | MMyInfo _ => False
  | _ => True
  end.

(** ** Keys *)

(** [c] is the exclusive or of [a] and [b]. *)
Definition is_xor (a b c : byte) : Prop := b2n c = N.lxor (b2n a) (b2n b).
(** The key bytes of a lock: each byte combined with the one before, the first with the last
    two and the magic byte. *)
Definition chained (magic : byte) (l k : bytes) : Prop :=
  2 <= length l /\ length k = length l /\
  (forall i, 0 < i < length l -> is_xor (nth i l x00) (nth (i - 1) l x00) (nth i k x00)) /\
  exists x y, is_xor (nth 0 l x00) (nth (length l - 1) l x00) x /\ is_xor x (nth (length l - 2) l x00) y /\
              is_xor y magic (nth 0 k x00).
(** The two halves of a byte exchanged. *)
Definition swapped (k s : byte) : Prop := (b2n s = 16 * (b2n k mod 16) + b2n k / 16)%N.
(** Reserved bytes are written as three decimal digits. *)
Definition reserved : list byte := [x00; x05; x24; x60; x7c; x7e].
(** A decimal digit. *)
Definition digit (n : N) : byte := n2b (48 + n).
(** The text for one byte of a key. *)
Definition replaced (c : byte) (t : bytes) : Prop :=
  In c reserved /\ t = B "/%DCN" ++ [digit (b2n c / 100); digit (b2n c / 10 mod 10); digit (b2n c mod 10)] ++ B "%/" \/
  ~ In c reserved /\ t = [c].
(** The key for a lock, as text. *)
Definition key_text (magic : byte) (l t : bytes) : Prop :=
  exists k s ts, chained magic l k /\ Forall2 swapped k s /\ Forall2 replaced s ts /\ t = concat ts.
(** The key bytes before the replacement. *)
Definition key_bytes (magic : byte) (l s : bytes) : Prop := exists k, chained magic l k /\ Forall2 swapped k s.

(** ** Order of strings *)
Inductive string_le : bytes -> bytes -> Prop :=
| sl_nil b : string_le [] b
| sl_less x y a b : (b2n x < b2n y)%N -> string_le (x :: a) (y :: b)
| sl_same x a b : string_le a b -> string_le (x :: a) (x :: b).

(** ** Fields which a line may leave alone *)
(** All fields of [m] that the decoder leaves alone for some accepted line are zero. *)
Definition cleared (m : msg) : Prop :=
  match m with
  | MErr _ e => e = None
  | MChat m => ch_name m = []
  | MUserCommand m => uc_path m = [] /\ uc_command m = []
  | MCtm m => ct_src m = [] /\ ct_secure m = false
  | MAdcGet m => ag_compressed m = false /\ ag_downloaded m = None
  | MAdcSnd m => as_compressed m = false
  | MHubInfo m => m = mk_hubinfo (hi_name m) [] [] 0 0 0 0 [] [] [] [] []
  | MSearch m => se_address m = [] /\ se_user m = [] /\ se_size m = 0%N /\ se_pattern m = [] /\ se_tth m = None
  | MSR m => sr_to m = [] /\ sr_hubname m = [] /\ sr_tth m = None
  | MMyInfo m => m = mk_myinfo (mi_name m) (mi_desc m) [] [] (mi_mode m) 0 0 0 0 [] [] x00 (mi_email m) 0
  | _ => True
  end.
