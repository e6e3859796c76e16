(** Independent specification of decoding: which NMDC payloads are accepted, and which message
    each of them stands for.  Where SpecNmdc.v describes what this package writes, the relations
    here also cover what other programs send (optional parts, padding, repeated and unknown
    fields, legacy escapes).  Only the record types and the table of entity names are shared with
    the model. *)
From Coq Require Import Permutation.
From Verif Require Import Base SpecText SpecHash SpecNmdc HtmlTable NmdcChat NmdcHub NmdcFiles NmdcUser NmdcMessage.

(** ** Escapes in text *)

(** The legacy sequences and the bytes they stand for. *)
Definition legacy_pairs : list (bytes * byte) :=
  [(B "/%DCN000%/", x00); (B "/%DCN005%/", x05); (B "/%DCN036%/", "$"%byte);
   (B "/%DCN096%/", "`"%byte); (B "/%DCN124%/", "|"%byte); (B "/%DCN126%/", "~"%byte)].
(** Replacing them from left to right; a replacement is not looked at again. *)
Inductive legacy_read : bytes -> bytes -> Prop :=
| lr_end : legacy_read [] []
| lr_seq p c s t : In (p, c) legacy_pairs -> legacy_read s t -> legacy_read (p ++ s) (c :: t)
| lr_byte c s t : (forall p, In p legacy_seqs -> ~ starts_with p (c :: s)) -> legacy_read s t ->
    legacy_read (c :: s) (c :: t).

(** Windows-1252 characters which HTML gives to the numbers 128 to 159. *)
Definition windows_1252 : list N :=
  [8364; 129; 8218; 402; 8222; 8230; 8224; 8225; 710; 8240; 352; 8249; 338; 141; 381; 143;
   144; 8216; 8217; 8220; 8221; 8226; 8211; 8212; 732; 8482; 353; 8250; 339; 157; 382; 376]%N.
(** The number of a reference is computed in 32 bits with a sign. *)
Definition signed32 (v : N) : Z :=
  let m := (Z.of_N v mod 2 ^ 32)%Z in if (m <? 2 ^ 31)%Z then m else (m - 2 ^ 32)%Z.
(** The character of a numeric reference. *)
Inductive ref_char (z : Z) : N -> Prop :=
| rc_windows r : (128 <= z <= 159)%Z -> nth_error windows_1252 (Z.to_nat (z - 128)) = Some r -> ref_char z r
| rc_invalid : (z <= 0 \/ 0xD800 <= z <= 0xDFFF \/ 0x10FFFF < z)%Z -> ref_char z 0xFFFD
| rc_scalar : (0 < z < 128 \/ 159 < z < 0xD800 \/ 0xDFFF < z <= 0x10FFFF)%Z -> ref_char z (Z.to_N z).

(** A hexadecimal digit and its value. *)
Definition hex_char (c : byte) (v : N) : Prop :=
  (48 <= b2n c <= 57 /\ v = b2n c - 48 \/ 65 <= b2n c <= 70 /\ v = b2n c - 55 \/ 97 <= b2n c <= 102 /\ v = b2n c - 87)%N.
(** ASCII letters and digits. *)
Definition name_char (c : byte) : Prop :=
  (48 <= b2n c <= 57 \/ 65 <= b2n c <= 90 \/ 97 <= b2n c <= 122)%N.
(** [e] is the optional semicolon after a maximal run of characters of a class. *)
Definition run_end (class : byte -> Prop) (e rest : bytes) : Prop :=
  e = B ";" \/ e = [] /\ match rest with [] => True | c :: _ => ~ class c /\ c <> ";"%byte end.

(** A character reference: the text after the ampersand, the characters, and what follows. *)
Inductive html_ref : bytes -> list N -> bytes -> Prop :=
| hr_decimal d e rest r : Forall digit_char d -> run_end digit_char e rest -> 2 <= length (d ++ e) ->
    ref_char (signed32 (dec_value d)) r -> html_ref (B "#" ++ d ++ e ++ rest) [r] rest
| hr_hexadecimal x d vs e rest r : x = "x"%byte \/ x = "X"%byte -> Forall2 hex_char d vs ->
    run_end (fun c => exists v, hex_char c v) e rest -> 1 <= length (d ++ e) ->
    ref_char (signed32 (fold_left (fun a v => 16 * a + v)%N vs 0%N)) r ->
    html_ref (B "#" ++ [x] ++ d ++ e ++ rest) [r] rest
| hr_named w e rest cs : Forall name_char w -> run_end name_char e rest -> In (w ++ e, cs) entity_table ->
    html_ref (w ++ e ++ rest) cs rest
(* a known name of 2 to 6 characters followed by more characters of an unknown one *)
| hr_prefix p q e rest r : Forall name_char (p ++ q) -> run_end name_char e rest -> q ++ e <> [] ->
    (forall cs, ~ In (p ++ q ++ e, cs) entity_table) -> 2 <= length p <= 6 -> In (p, [r]) entity_table ->
    (forall p' q' r', p' ++ q' = p ++ q ++ e -> length p < length p' <= 6 -> q' <> [] -> ~ In (p', [r']) entity_table) ->
    html_ref (p ++ q ++ e ++ rest) [r] (q ++ e ++ rest).
(** Replacing the references from left to right; an ampersand which is not the start of one stays. *)
Inductive html_read : bytes -> bytes -> Prop :=
| hd_end : html_read [] []
| hd_byte c s t : c <> "&"%byte -> html_read s t -> html_read (c :: s) (c :: t)
| hd_ref s cs rest t : html_ref s cs rest -> html_read rest t -> html_read ("&"%byte :: s) (flat_map utf8_of cs ++ t)
| hd_amp s t : (forall cs rest, ~ html_ref s cs rest) -> html_read s t -> html_read ("&"%byte :: s) ("&"%byte :: t).

(** The text of a field before decoding: legacy sequences first, then references. *)
Definition unescaped (raw u : bytes) : Prop := exists v, legacy_read raw v /\ html_read v u.

(** ** Cutting *)

(** [s] is [a], [sep] and [b], where [sep] is the first occurrence. *)
Definition first (sep s a b : bytes) : Prop :=
  s = a ++ sep ++ b /\ forall a' b', s = a' ++ sep ++ b' -> length a <= length a'.
(** [l] are the parts of [s] between all occurrences of [sep], from the left. *)
Inductive split_on (sep : bytes) : bytes -> list bytes -> Prop :=
| so_last s : ~ substring sep s -> split_on sep s [s]
| so_part s a b l : first sep s a b -> split_on sep b l -> split_on sep s (a :: l).
(** [t] is [s] without one [suffix] at its end, if it has one. *)
Definition without_suffix (suffix s t : bytes) : Prop :=
  s = t ++ suffix \/ (forall a, s <> a ++ suffix) /\ t = s.
(** [t] is [s] without [prefix] at its start, if it has one. *)
Definition without_prefix (prefix s t : bytes) : Prop :=
  s = prefix ++ t \/ ~ starts_with prefix s /\ t = s.
(** The parts of [l] which are not empty. *)
Definition filled (l : list bytes) : list bytes := filter (fun x => match x with [] => false | _ => true end) l.

(** White space around a text. *)
Definition starts_white (s : bytes) : Prop := exists r t, white r /\ s = utf8_of r ++ t.
(** Nothing but white space. *)
Definition blank (s : bytes) : Prop := exists rs, Forall white rs /\ s = flat_map utf8_of rs.
(** [t] is [s] without the white space around. *)
Definition trimmed (s t : bytes) : Prop :=
  exists a b, s = a ++ t ++ b /\ blank a /\ blank b /\ ~ starts_white t /\ ~ ends_white t.

(** ** Values *)

(** A hash in base32: line breaks are ignored, unused bits may be set, and an optional end marked
    by the byte 0xFF is not looked at. *)
Definition hash_read (s h : bytes) : Prop :=
  length h = 24 /\ exists t tail r, unbroken s = t ++ tail /\ length t = 39 /\ length r = 3 /\
    spells t (flat_map bits8 h ++ r) /\ (tail = [] \/ exists x, tail = xff :: x /\ length x <= 7).
(** A number in a field, with spaces around. *)
Definition uint_read (s : bytes) (n : N) : Prop := exists d, padded s d /\ decimal d n /\ u64 n.
(** A number with a sign in a field. *)
Definition int_read (s : bytes) (z : Z) : Prop := exists d, padded s d /\ signed_decimal d z /\ i64 z.
(** The same number as int64 *)
Definition wrapped64 (n : N) : Z := if (n <? 2 ^ 63)%N then Z.of_N n else (Z.of_N n - 2 ^ 64)%Z.

Section Read.
Variable dec : option (bytes -> option bytes).

(** Escapes, then the decoder of the connection; the result must be UTF-8. *)
Definition text_read (raw s : bytes) : Prop := exists u, unescaped raw u /\ encodes_to dec u s /\ utf8_text s.
(** The type String. *)
Definition str_read (raw s : bytes) : Prop := ~ In x00 raw /\ text_read raw s.
(** The type Name: at most 256 bytes, none of them special. *)
Definition name_read (raw s : bytes) : Prop :=
  (N.of_nat (length raw) <= 256)%N /\
  (~ In "$"%byte raw /\ ~ In x00 raw /\ ~ In x0d raw /\ ~ In x0a raw /\ ~ In x09 raw) /\ text_read raw s.

(** ** Chat *)

(** A closing bracket followed by white space. *)
Definition closing (d a : bytes) : Prop := exists w b, white w /\ d = a ++ B ">" ++ utf8_of w ++ b.
(** No line break. *)
Definition one_line (s : bytes) : Prop := ~ In x0d s /\ ~ In x0a s.
(** Name and text of a line after its opening bracket. *)
Inductive chat_parts : bytes -> bytes -> bytes -> Prop :=
(* the first bracket that is followed by white space, if it is on the first line *)
| cs_space n w t : white w -> one_line n -> (forall a, closing (n ++ B ">" ++ utf8_of w ++ t) a -> length n <= length a) ->
    chat_parts (n ++ B ">" ++ utf8_of w ++ t) n t
(* otherwise the last one of the first line *)
| cs_last n l rest : (forall a, closing (n ++ B ">" ++ l ++ rest) a -> ~ one_line a) -> one_line n -> one_line l -> ~ In ">"%byte l ->
    l ++ rest <> [] -> (rest = [] \/ starts_with [x0d] rest \/ starts_with [x0a] rest) ->
    chat_parts (n ++ B ">" ++ l ++ rest) n (l ++ rest)
(* the text is empty *)
| cs_end n : one_line n -> ~ In ">"%byte n -> chat_parts (n ++ B ">") n []
(* a line with several brackets which ends with one is cut at an unrelated place: at the
   distance between the last two *)
| cs_wrong p q n c t : (forall a, ~ closing (p ++ B ">" ++ q ++ B ">") a) -> one_line (p ++ q) -> ~ In ">"%byte q ->
    p ++ B ">" ++ q ++ B ">" = n ++ [c] ++ t -> length n = length q ->
    chat_parts (p ++ B ">" ++ q ++ B ">") n t
| cs_empty : chat_parts [] [] [].
(** A chat line. *)
Inductive chat_read : bytes -> chat -> Prop :=
| cr_plain data t : ~ starts_with (B "<") data -> str_read data t -> chat_read data (mk_chat [] t)
| cr_named d n t name text : chat_parts d n t -> name_read n name -> str_read t text ->
    chat_read (B "<" ++ d) (mk_chat name text).

(** A private message. *)
Inductive pm_read : bytes -> pm -> Prop :=
| pr data t r1 f r2 n x to from name text : first (B " From: ") data t r1 -> first (B " $<") r1 f r2 -> first (B "> ") r2 n x ->
    name_read t to -> name_read f from -> name_read n name -> str_read x text -> pm_read data (mk_pm to from name text).
(** A chat line for one user. *)
Inductive mcto_read : bytes -> mcto -> Prop :=
| mr data t r f x to from text : first (B " $") data t r -> first (B " ") r f x ->
    name_read t to -> name_read f from -> str_read x text -> mcto_read data (mk_mcto to from text).

(** The digits at the start of a text. *)
Definition leading (s : bytes) (z : Z) : Prop :=
  exists d x, s = d ++ x /\ Forall digit_char d /\ match x with [] => True | c :: _ => ~ digit_char c end /\ int_read d z.
(** A command for the menu of a client: without or with path and command. *)
Inductive ucmd_read : bytes -> ucmd -> Prop :=
| ur_bare data core a b typ ctx : trimmed data core -> first (B " ") core a b -> ~ In " "%byte b ->
    int_read a typ -> leading b ctx -> ucmd_read data (mk_ucmd typ ctx [] [])
| ur_full data core a r b v p c k ps typ ctx path cmd : trimmed data core -> first (B " ") core a r -> first (B " ") r b v ->
    int_read a typ -> leading b ctx -> first (B "$") v (p ++ repeat " "%byte k) c -> p ++ repeat " "%byte k <> [] -> ~ ends_in " " p ->
    split_on (B "\") p ps -> Forall2 str_read (filled ps) path -> str_read c cmd -> ucmd_read data (mk_ucmd typ ctx path cmd).

(** ** Connections *)

(** A connection request. *)
Inductive ctm_read : bytes -> ctm -> Prop :=
| cmr data t r addr targ src a kind (secure : bool) : first (B " ") data t r -> name_read t targ ->
    (exists s, first (B " ") r addr s /\ name_read s src) \/ (~ In " "%byte r /\ addr = r /\ src = []) ->
    addr = a ++ kind_letter kind ++ (if secure then B "S" else []) -> (secure = false -> ~ ends_in "S" addr) ->
    kind = 0%Z /\ ~ ends_in "N" a /\ ~ ends_in "R" a \/ kind = 1%Z \/ kind = 2%Z ->
    ctm_read data (mk_ctm targ src a kind secure).
(** A request to connect back. *)
Inductive rctm_read : bytes -> rctm -> Prop :=
| rmr data f t from to : first (B " ") data f t -> name_read f from -> name_read t to -> rctm_read data (mk_rctm from to).

(** ** Files *)

(** Flags after the numbers of a request: every field [DB] holds a number, and the last one counts. *)
Definition flags_read (fs : list bytes) (z : bool) (db : option N) : Prop :=
  (z = true <-> In (B "ZL1") fs) /\
  (forall x, In (B "DB" ++ x) fs -> exists n, uint_read x n) /\
  match db with
  | None => forall x, ~ In (B "DB" ++ x) fs
  | Some n => exists l x r, fs = l ++ (B "DB" ++ x) :: r /\ uint_read x n /\ forall y, ~ In (B "DB" ++ y) r
  end.
(** A request for a file. *)
Inductive adcget_read : bytes -> adcget -> Prop :=
| agr data t r1 i r2 s r3 typ ident start len fs l z db : first (B " ") data t r1 -> first (B " ") r1 i r2 -> first (B " ") r2 s r3 ->
    str_read t typ -> str_read i ident -> uint_read s start ->
    split_on (B " ") r3 (l :: fs) ->
    (l = B "-1" /\ len = (-1)%Z \/ exists n, uint_read l n /\ len = wrapped64 n) -> flags_read fs z db ->
    adcget_read data (mk_adcget typ ident start len z db).
(** The answer to such a request. *)
Inductive adcsnd_read : bytes -> adcsnd -> Prop :=
| asr data t r1 i r2 s r3 typ ident start len l z : first (B " ") data t r1 -> first (B " ") r1 i r2 -> first (B " ") r2 s r3 ->
    str_read t typ -> str_read i ident -> uint_read s start -> ~ In " "%byte l -> uint_read l len ->
    (r3 = l /\ z = false \/ r3 = l ++ B " " /\ z = false \/ r3 = l ++ B " ZL1" /\ z = true) ->
    adcsnd_read data (mk_adcsnd typ ident start len z).
(** The direction of a transfer. *)
Inductive direction_read : bytes -> direction -> Prop :=
| dr up x n : uint_read x n -> (1 <= n <= 32767)%N ->
    direction_read ((if up : bool then B "Upload" else B "Download") ++ B " " ++ x) (mk_direction up n).

(** ** Search *)

(** A truth value. *)
Definition flag_text (b : bool) : bytes := if b then B "T" else B "F".
(** A negative size lifts the restriction. *)
Inductive size_read (r : bool) : bytes -> bool -> N -> Prop :=
| szr_none : size_read r [] r 0
| szr_negative x n : uint_read x n -> size_read r (B "-" ++ x) false 0
| szr_number s n : ~ starts_with (B "-") s -> uint_read s n -> size_read r s r n.
(** What is searched for. *)
Inductive what_read (typ : N) : bytes -> bytes -> option bytes -> Prop :=
| wr_hash s h : typ = 9%N -> (~ ends_in "$" s /\ hash_read s h) -> what_read typ (B "TTH:" ++ s) [] (Some h)
| wr_hash_end s h : typ = 9%N -> hash_read s h -> what_read typ (B "TTH:" ++ s ++ B "$") [] (Some h)
| wr_text s p : typ <> 9%N -> str_read s p ->
    what_read typ s (map (fun c => if beq c "$" then " "%byte else c) p) None.
(** A search. *)
Inductive search_read : bytes -> search -> Prop :=
| sr_search data who r f2 f3 f4 addr user rs rs' mx size typ pat tth : first (B " ") data who r ->
    (exists n, who = B "Hub:" ++ n /\ name_read n user /\ addr = []) \/ (~ starts_with (B "Hub:") who /\ addr = who /\ user = []) ->
    r = flag_text rs ++ B "?" ++ flag_text mx ++ B "?" ++ f2 ++ B "?" ++ f3 ++ B "?" ++ f4 -> ~ In "?"%byte f2 -> ~ In "?"%byte f3 ->
    size_read rs f2 rs' size -> uint_read f3 typ -> what_read typ f4 pat tth ->
    search_read data (mk_search addr user rs' mx size typ pat tth).

(** Hub name or hash of a result and what follows the opening parenthesis. *)
Inductive hub_read : bytes -> bytes -> option bytes -> bytes -> Prop :=
| hbr_hash t h rest : length t = 39 -> hash_read t h -> hub_read (B "TTH:" ++ t ++ B " (" ++ rest) [] (Some h) rest
| hbr_name s n rest hub : ~ starts_with (B "TTH:") s -> first (B " (") s n rest -> str_read n hub -> hub_read s hub None rest.
(** The path is checked as a text but kept as it was sent. *)
Definition path_read (s : bytes) (path : list bytes) : Prop :=
  (exists t, str_read s t) /\ split_on (B "\") s path.
(** The optional name at the end of a result. *)
Inductive target_read : bytes -> bytes -> Prop :=
| tr_none : target_read [] []
| tr_some n to : n <> [] -> name_read n to -> target_read (x05 :: n) to.
(** A search result. *)
Inductive sr_read : bytes -> sr -> Prop :=
| srr data n r1 x r2 from p path isdir size slots r3 f t free total hub tth rest addr r4 to :
    first (B " ") data n r1 -> name_read n from -> first [x05] r1 x r2 ->
    (* a directory if the text before the separator ends with slots: any other byte ends the path *)
    (isdir = true /\ size = 0%N /\ r3 = r2 /\ (exists c, x = p ++ [c] ++ slots /\ ~ slot_char c /\ Forall slot_char slots /\ In "/"%byte slots)) \/
    (isdir = false /\ ~ slots_like x /\ p = x /\ exists ss s, first [x05] r2 ss r3 /\ first (B " ") ss s slots /\ uint_read s size) ->
    path_read p path -> first (B "/") slots f t -> int_read f free -> int_read t total ->
    hub_read r3 hub tth rest -> first (B ")") rest addr r4 -> target_read r4 to ->
    sr_read data (mk_sr from path isdir size free total hub tth addr to).
(** A short search of a user with an address. *)
Inductive sa_read : bytes -> sa -> Prop :=
| sar t h a : length t = 39 -> hash_read t h -> sa_read (t ++ B " " ++ a) (mk_sa h a).
(** A short search of a user without an address. *)
Inductive sp_read : bytes -> sp -> Prop :=
| spr t h n user : length t = 39 -> hash_read t h -> name_read n user -> sp_read (t ++ B " " ++ n) (mk_sp h user).

(** ** Users *)

(** The fields of a tag. *)
Inductive item :=
| IClient (c : bytes) | INothing | IVersion (v : bytes) | IMode (m : byte) | IHub (n : Z) | IHubs (n r o : Z)
| ISlots (n : Z) | IExtra (k v : bytes).
(** Single letters are case insensitive: everything above Z is moved down. *)
Definition letter (c : byte) : byte := if (90 <? b2n c)%N then n2b (b2n c - 32) else c.
(** The letters with a meaning of their own. *)
Definition std_letter (c : byte) : Prop := In (letter c) (B "VMHS").
(** One field; only the first one may be a client name. *)
Inductive item_read : bool -> bytes -> item -> Prop :=
| ir_empty first : item_read first [] INothing
| ir_client c : c <> [] -> ~ In ":"%byte c -> item_read true c (IClient c)
| ir_version first c v : letter c = "V"%byte -> item_read first (c :: B ":" ++ v) (IVersion v)
| ir_mode first c m : letter c = "M"%byte -> item_read first (c :: B ":" ++ [m]) (IMode m)
| ir_no_mode first c v : letter c = "M"%byte -> length v <> 1 -> item_read first (c :: B ":" ++ v) (IMode x00)
| ir_hub_empty first c : letter c = "H"%byte -> item_read first (c :: B ":") (IHub 1)
| ir_hub first c s n : letter c = "H"%byte -> s <> [] -> ~ In "/"%byte s -> int_read s n -> item_read first (c :: B ":" ++ s) (IHub n)
| ir_hubs first c s1 s2 s3 n r o : letter c = "H"%byte -> ~ In "/"%byte s1 -> ~ In "/"%byte s2 -> ~ In "/"%byte s3 ->
    int_read s1 n -> int_read s2 r -> int_read s3 o -> item_read first (c :: B ":" ++ s1 ++ B "/" ++ s2 ++ B "/" ++ s3) (IHubs n r o)
| ir_slots first c s n : letter c = "S"%byte -> int_read s n -> item_read first (c :: B ":" ++ s) (ISlots n)
| ir_letter first c v : c <> ":"%byte -> ~ std_letter c -> item_read first (c :: B ":" ++ v) (IExtra (utf8_of (b2n (letter c))) v)
| ir_key first k v : 2 <= length k -> ~ In ":"%byte k -> item_read first (k ++ B ":" ++ v) (IExtra k v).
(** All fields of a tag. *)
Inductive items_read : bool -> list bytes -> list item -> Prop :=
| is_end first : items_read first [] []
| is_more first f i fs is : item_read first f i -> items_read false fs is -> items_read first (f :: fs) (i :: is).
(** The last item of a kind determines a value. *)
Definition last_of {A} (sel : item -> option A) (default : A) (is : list item) : A :=
  fold_left (fun a i => match sel i with Some v => v | None => a end) is default.
(** Client name of a field, if it is one; the others are similar. *)
Definition sel_client i := match i with IClient c => Some c | _ => None end.
(** Version. *)
Definition sel_version i := match i with IVersion v => Some v | _ => None end.
(** Mode. *)
Definition sel_mode i := match i with IMode m => Some m | _ => None end.
(** Number of hubs. *)
Definition sel_normal i := match i with IHub n => Some n | IHubs n _ _ => Some n | _ => None end.
(** Number of hubs where the user is registered. *)
Definition sel_reg i := match i with IHubs _ r _ => Some r | _ => None end.
(** Number of hubs where the user is operator. *)
Definition sel_op i := match i with IHubs _ _ o => Some o | _ => None end.
(** Number of slots. *)
Definition sel_slots i := match i with ISlots n => Some n | _ => None end.
(** Value of the additional field [k]. *)
Definition sel_extra (k : bytes) i := match i with IExtra k' v => if bytes_eqb k k' then Some (Some v) else None | _ => None end.
(** The map of additional fields. *)
Definition extras_read (is : list item) (extra : list (bytes * bytes)) : Prop :=
  NoDup (map fst extra) /\ forall k v, In (k, v) extra <-> last_of (sel_extra k) None is = Some v.

(** Client name before the version and the rest of the tag. *)
Inductive tag_split : bytes -> bytes -> bytes -> Prop :=
| ts_upper tag c t : first (B " V:") tag c t -> tag_split tag c (B "V:" ++ t)
| ts_lower tag c t : ~ substring (B " V:") tag -> first (B " v:") tag c t -> tag_split tag c (B "v:" ++ t)
| ts_none tag : ~ substring (B " V:") tag -> ~ substring (B " v:") tag -> tag_split tag [] tag.

(** User information. *)
Inductive myinfo_read : bytes -> myinfo -> Prop :=
| mir n f0 md f2 f3 f4 f5 name desc client version mode hn hr ho slots extra conn flag email share :
    ~ In " "%byte n -> name_read n name ->
    Forall (fun f => ~ In "$"%byte f) [f0; [md]; f2; f3; f4; f5] ->
    (~ In "<"%byte f0 /\ str_read f0 desc /\ mode = (if beq md " " then x00 else md) /\
       client = [] /\ version = [] /\ (hn, hr, ho, slots) = (0, 0, 0, 0)%Z /\ extra = [] \/
     exists d tag tag' c t fs is, f0 = d ++ B "<" ++ tag /\ ~ In "<"%byte tag /\ tag <> [] /\ str_read d desc /\
       without_suffix (B ">") tag tag' /\ tag_split tag' c t /\ split_on (B ",") t fs /\ items_read true fs is /\
       client = last_of sel_client c is /\ version = last_of sel_version [] is /\ mode = last_of sel_mode x00 is /\
       hn = last_of sel_normal 0%Z is /\ hr = last_of sel_reg 0%Z is /\ ho = last_of sel_op 0%Z is /\
       slots = last_of sel_slots 0%Z is /\ extras_read is extra) ->
    (f2 = [] /\ flag = x00 /\ conn = [] \/ exists c, f2 = c ++ [flag] /\ str_read c conn) ->
    str_read f3 email ->
    (uint_read f4 share \/ (forall k, ~ uint_read f4 k) /\ share = 0%N) ->
    myinfo_read (B "$ALL " ++ n ++ B " " ++ sep_by (B "$") [f0; [md]; f2; f3; f4; f5])
      (mk_myinfo name desc client version mode hn hr ho slots extra conn flag email share).

(** A list of names. *)
Definition names_read (data : bytes) (l : list bytes) : Prop :=
  exists d, without_suffix (B "$$") data d /\
    (d = [] /\ l = [] \/ d <> [] /\ exists ps, split_on (B "$$") d ps /\ Forall2 name_read ps l).
(** Name and address: the last space separates them. *)
Definition userip_entry (p : bytes) (e : bytes * bytes) : Prop :=
  (exists n, p = n ++ B " " ++ snd e /\ ~ In " "%byte (snd e) /\ name_read n (fst e)) \/
  ~ In " "%byte p /\ snd e = [] /\ name_read p (fst e).
(** A list of names with addresses. *)
Definition userip_read (data : bytes) (l : list (bytes * bytes)) : Prop :=
  exists d1 d2 ps, without_suffix [x0d] data d1 /\ without_suffix (B "$$") d1 d2 /\ split_on (B "$$") d2 ps /\ Forall2 userip_entry ps l.

(** ** Hub *)

(** An error: none if the text is empty. *)
Definition err_read (data : bytes) (e : option bytes) : Prop :=
  str_read data [] /\ e = None \/ exists s, s <> [] /\ str_read data s /\ e = Some s.
(** Addresses separated by commas. *)
Definition failover_read (data : bytes) (l : list bytes) : Prop := split_on (B ",") data l.
(** Extensions separated by spaces. *)
Definition supports_read (data : bytes) (l : list bytes) : Prop := exists ps, split_on (B " ") data ps /\ l = filled ps.

(** A lock: optional prefix, lock, optional key and reference. *)
Inductive lock_read : bytes -> lock -> Prop :=
| lkr noext data body l pk ref : (noext = false /\ data = B "EXTENDEDPROTOCOL" ++ body \/ noext = true /\ ~ starts_with (B "EXTENDEDPROTOCOL") data /\ body = data) ->
    (~ In " "%byte body /\ l = body /\ pk = [] /\ ref = [] \/
     exists r r', first (B " ") body l r /\ without_prefix (B "Pk=") r r' /\
       (first (B "Ref=") r' pk ref \/ ~ substring (B "Ref=") r' /\ pk = r' /\ ref = [])) ->
    lock_read data (mk_lock noext l pk ref).

(** Field number [i] is read by [P]; without it the value is [default]. *)
Definition field {A} (fs : list bytes) (i : nat) (P : bytes -> A -> Prop) (default : A) (x : A) : Prop :=
  match nth_error fs i with Some f => P f x | None => x = default end.
(** Name and version of the hub software: the last space separates them. *)
Definition software (f : bytes) (sv : bytes * bytes) : Prop :=
  (f = fst sv ++ B " " ++ snd sv /\ ~ In " "%byte (snd sv)) \/ ~ In " "%byte f /\ sv = (f, []).
(** At most 13 parts: the last one may contain further separators. *)
Definition split_max (sep : byte) (max : nat) (s : bytes) (l : list bytes) : Prop :=
  exists a b, l = a ++ [b] /\ s = sep_by [sep] l /\ Forall (fun x => ~ In sep x) a /\ length l <= max /\ (length l < max -> ~ In sep b).
(** Hub information: fields may be missing at the end. *)
Inductive hubinfo_read : bytes -> hubinfo -> Prop :=
| hir data fs name host desc i1 i2 i3 i4 soft vers owner state encoding : split_max "$" 13 data fs ->
    field fs 0 str_read [] name -> field fs 1 eq [] host -> field fs 2 str_read [] desc ->
    field fs 3 int_read 0%Z i1 -> field fs 4 int_read 0%Z i2 -> field fs 5 int_read 0%Z i3 -> field fs 6 int_read 0%Z i4 ->
    field fs 7 software ([], []) (soft, vers) -> field fs 8 str_read [] owner -> field fs 9 str_read [] state ->
    (* the encoding only counts if no more than one field follows it *)
    (if (length fs <? 12)%nat then field fs 10 eq [] encoding else encoding = []) ->
    hubinfo_read data (mk_hubinfo name host desc i1 i2 i3 i4 soft vers owner state encoding).

(** ** All messages *)

(** The commands with a message type of their own. *)
Definition known : list bytes :=
  map B ["Hello"; "Kick"; "Close"; "ValidateNick"; "ValidateDenide"; "MyNick"; "Quit"; "LogedIn"; "HubName"; "SetTopic"; "MyPass";
         "BotINFO"; "SetIcon"; "SetLogo"; "HubTopic"; "MaxedOut"; "HubIsFull"; "ZOn"; "GetTopic"; "BadPass"; "GetPass";
         "GetNickList"; "Version"; "Key"; "ForceMove"; "Failed"; "Error"; "OpList"; "BotList"; ""; "To:"; "MCTo"; "UserCommand";
         "ConnectToMe"; "RevConnectToMe"; "ADCGET"; "ADCSND"; "Direction"; "FailOver"; "Lock"; "HubINFO"; "Search"; "SR"; "SA";
         "SP"; "MyINFO"; "UserIP"; "Supports"]%string.
(** [reads data m]: the payload [data] of the command [msg_type m] stands for [m]. *)
Inductive reads : bytes -> msg -> Prop :=
| rd_name k data s : name_read data s -> reads data (MName k s)
| rd_string k data s : str_read data s -> reads data (MString k s)
| rd_noargs k : reads [] (MNoArgs k)
| rd_text k data : reads data (MText k data)
| rd_err k data e : err_read data e -> reads data (MErr k e)
| rd_names k data l : names_read data l -> reads data (MNames k l)
| rd_chat data m : chat_read data m -> reads data (MChat m)
| rd_pm data m : pm_read data m -> reads data (MPm m)
| rd_mcto data m : mcto_read data m -> reads data (MMCTo m)
| rd_ucmd data m : ucmd_read data m -> reads data (MUserCommand m)
| rd_ctm data m : ctm_read data m -> reads data (MCtm m)
| rd_rctm data m : rctm_read data m -> reads data (MRevCtm m)
| rd_adcget data m : adcget_read data m -> reads data (MAdcGet m)
| rd_adcsnd data m : adcsnd_read data m -> reads data (MAdcSnd m)
| rd_direction data m : direction_read data m -> reads data (MDirection m)
| rd_failover data l : failover_read data l -> reads data (MFailOver l)
| rd_lock data m : lock_read data m -> reads data (MLock m)
| rd_hubinfo data m : hubinfo_read data m -> reads data (MHubInfo m)
| rd_search data m : search_read data m -> reads data (MSearch m)
| rd_sr data m : sr_read data m -> reads data (MSR m)
| rd_sa data m : sa_read data m -> reads data (MSA m)
| rd_sp data m : sp_read data m -> reads data (MSP m)
| rd_userip data l : userip_read data l -> reads data (MUserIP l)
| rd_supports data l : supports_read data l -> reads data (MSupports l)
| rd_myinfo data m : myinfo_read data m -> reads data (MMyInfo m)
| rd_raw t data : ~ In t known -> reads data (MRaw t data).
End Read.

(** The same message; the order in which additional fields of a user are listed does not count
    (they are a map). *)
Definition myinfo_alike (a b : myinfo) : Prop :=
  b = mk_myinfo a.(mi_name) a.(mi_desc) a.(mi_client) a.(mi_version) a.(mi_mode) a.(mi_hubs_normal) a.(mi_hubs_reg) a.(mi_hubs_op)
        a.(mi_slots) b.(mi_extra) a.(mi_conn) a.(mi_flag) a.(mi_email) a.(mi_share) /\
  Permutation a.(mi_extra) b.(mi_extra).
(** The same for all messages. *)
Definition msg_alike (a b : msg) : Prop := a = b \/ exists x y, a = MMyInfo x /\ b = MMyInfo y /\ myinfo_alike x y.
