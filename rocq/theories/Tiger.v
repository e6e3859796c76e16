(** tiger/tiger.go (text forms of hashes), tiger/tth.go (tree hash),
    adc/types/types.go (SID, CID), keyprint/keyprint.go and keyprint/tlskp/tlskp.go.

    The hash functions themselves (github.com/cxmcc/tiger, crypto/sha256) are parameters.
    A Hash or CID is a byte string of length 24.  Hex is in AdcAccess.v.
    NewPID and keyprint.FromURL are in Query.v. *)
From Verif Require Import Base Base32.

(** ** tiger/tiger.go *)

(** tiger/tiger.go:20-24 *)
Definition hash_size : nat := 24.
(** tiger/tiger.go:23 *)
Definition base32_size : nat := 39.
(** tiger/tth.go:5 *)
Definition tth_block : nat := 1024.

(** tiger/tiger.go:87-89,99-101 *)
Definition err_hash_size : error := EText "wrong base32 encoded size".

(** Hash.Base32, Hash.String, Hash.MarshalText: tiger/tiger.go:63,71-73,107-109;
    CID.Base32, String, MarshalText, MarshalADC: adc/types/types.go:92-99,107-110,118-120. *)
Definition hash_base32 (h : bytes) : bytes := b32_encode h.

(** Hash.MarshalBase32, tiger/tiger.go:76-79: the new contents of [buf], [None] is a panic. *)
Definition hash_marshal_base32 (buf h : bytes) : option bytes := b32_encode_to buf h.

(** Hash.MarshalADC, tiger/tiger.go:117-124: a [39]byte buffer. *)
Definition hash_marshal_adc (h : bytes) : res bytes :=
  match hash_marshal_base32 (repeat x00 base32_size) h with Some b => Ok b | None => Panic end.

(** Hash.UnmarshalBase32 and UnmarshalADC, tiger/tiger.go:82-91,127-129: result and the
    receiver afterwards. *)
Definition hash_unmarshal_base32 (h buf : bytes) : res unit * bytes :=
  match b32_decode_to h buf with
  | None => (Panic, h)
  | Some (h', n, Some e) => (Err e, h')
  | Some (h', n, None) => if (n =? hash_size)%nat then (Ok tt, h') else (Err err_hash_size, h')
  end.

(** Hash.FromBase32 and UnmarshalText, tiger/tiger.go:94-104,112-114; MustParseBase32
    (tiger/tiger.go:39-44) panics instead of returning the error. *)
Definition hash_from_base32 (h s : bytes) : res unit * bytes :=
  match b32_decode_string s with
  | (_, Some e) => (Err e, h)
  | (b, None) => if (length b =? hash_size)%nat then (Ok tt, b ++ skipn (length b) h) else (Err err_hash_size, h)
  end.
(** MustParseBase32, tiger/tiger.go:39-44 *)
Definition must_parse_base32 (s : bytes) : res bytes :=
  match hash_from_base32 (repeat x00 hash_size) s with (Ok _, h) => Ok h | _ => Panic end.

(** CID.FromBase32, UnmarshalText, UnmarshalADC: adc/types/types.go:102-104,113-115,123-130 *)
Definition cid_from_base32 (id s : bytes) : res unit * bytes :=
  match hash_from_base32 (repeat x00 hash_size) s with
  | (Ok _, th) => (Ok tt, th)
  | (Err e, _) => (Err e, id)
  | (Panic, _) => (Panic, id)
  end.

(** ** adc/types/types.go: session identifiers *)

(** The loop of SIDFromInt, adc/types/types.go:15-21, filling the last [n] symbols. *)
Fixpoint sid_loop (n : nat) (v : N) (acc : bytes) : bytes :=
  match n with
  | O => acc
  | S m => sid_loop m (v / 32) (nth (N.to_nat (v mod 32)) alphabet x00 :: acc)
  end.
(** SIDFromInt, adc/types/types.go:15-21 *)
Definition sid_from_int (v : N) : bytes := sid_loop 4 v [].

(** adc/types/types.go:47-55 *)
Definition err_sid : error := EText "wrong SID format".
(** SID.UnmarshalADC, adc/types/types.go:47-55; MarshalADC (41-44) writes the bytes. *)
Definition sid_unmarshal (s : bytes) : res bytes := if (length s =? 4)%nat then Ok s else Err err_sid.
(** SIDFromString, adc/types/types.go:24-29 *)
Definition sid_from_string (s : bytes) : res bytes := match sid_unmarshal s with Ok id => Ok id | _ => Panic end.

(** ** tiger/tth.go *)

Section Tree.
Variable H : bytes -> bytes. (* HashBytes, tiger/tiger.go:27-34 *)

(** The answers of a reader to successive calls Read(buf[1:]) with a buffer of 1024 bytes;
    after the last one it reports io.EOF (The answers of r.Read, tiger/tth.go:17,65). *)
Definition reads : Type := list (bytes * option error).

(** The first loop of TreeLeaves and TreeHash, tiger/tth.go:16-26,64-74, entered with the
    leaves [lvl]. *)
Fixpoint read_leaves (rs : reads) (lvl : list bytes) : res (list bytes) :=
  let '(d, e, rest) := match rs with [] => ([], Some EEOF, []) | (d, e) :: t => (d, e, t) end in
  match e with
  | Some EEOF => Ok (if ((length d =? 0) && negb (length lvl =? 0))%nat%bool then lvl else lvl ++ [H (x00 :: d)])
  | Some e' => Err e'
  | None =>
      if ((length d =? 0) && negb (length lvl =? 0))%nat%bool then Ok lvl
      else match rs with
           | [] => Ok lvl (* unreachable *)
           | _ :: t => read_leaves t (lvl ++ [H (x00 :: d)])
           end
  end.

(** TreeLeaves, tiger/tth.go:12-29 *)
Definition tree_leaves (rs : reads) : res (list bytes) := read_leaves rs [].

(** Arrays of hashes: the memory is a list of arrays; slices are an array and a length
    (The array behind lvl, tiger/tth.go:34,61). *)
Definition memory : Type := list (list bytes).
(** lvl[i], tiger/tth.go:40-44,80-84 *)
Definition get (m : memory) (a i : nat) : bytes := nth i (nth a m []) [].
(** Model only: assignment to an element, tiger/tth.go:40,45,80,85 *)
Fixpoint set_nth {A} (i : nat) (x : A) (l : list A) : list A :=
  match i, l with
  | _, [] => []
  | O, _ :: t => x :: t
  | S j, y :: t => y :: set_nth j x t
  end.
(** lvl[i] = x, tiger/tth.go:40,45,80,85 *)
Definition put (m : memory) (a i : nat) (x : bytes) : memory := set_nth a (set_nth i x (nth a m [])) m.

(** The inner loop over the slice [a[:n]] starting at [i], tiger/tth.go:38-47,78-87. *)
Fixpoint pair_loop (fuel : nat) (m : memory) (a n i : nat) : memory :=
  match fuel with
  | O => m
  | S f =>
      if (i <? n)%nat then
        let m' := if (n <=? i + 1)%nat then put m a (i / 2) (get m a i)
                  else put m a (i / 2) (H (x01 :: get m a i ++ get m a (i + 1))) in
        pair_loop f m' a n (i + 2)
      else m
  end.

(** The outer loop, tiger/tth.go:37-53,77-93; the last step indexes lvl[0]. *)
Fixpoint level_loop (fuel : nat) (m : memory) (a n : nat) : memory * res bytes :=
  match fuel with
  | O => (m, Panic)
  | S f =>
      if (1 <? n)%nat then
        let m' := pair_loop n m a n 0 in
        level_loop f m' a (if (n mod 2 =? 0)%nat then n / 2 else n / 2 + 1)
      else (m, if (n =? 0)%nat then Panic else Ok (get m a 0))
  end.

(** Leaves.TreeHash on the array [a] of the memory, tiger/tth.go:32-55: copies the array. *)
Definition leaves_tree_hash (m : memory) (a : nat) : memory * res bytes :=
  let lvl := nth a m [] in
  level_loop (S (length lvl)) (m ++ [lvl]) (length m) (length lvl).

(** TreeHash, tiger/tth.go:58-96 *)
Definition tree_hash (rs : reads) : res bytes :=
  do lvl <- read_leaves rs [];
  snd (level_loop (S (length lvl)) [lvl] 0 (length lvl)).
End Tree.

(** ** keyprint *)

Section KeyPrint.
Variable sha256 : bytes -> bytes.

(** FromBytes, keyprint/keyprint.go:30-37 *)
Definition keyprint_bytes (b : bytes) : bytes :=
  let h := sha256 b in
  let pref := B "SHA256/" in
  let out := pref ++ repeat x00 (b32_encoded_len (length h)) in
  firstn (length pref) out ++
  match b32_encode_to (skipn (length pref) out) h with Some r => r | None => [] end.

(** FromCertificate, keyprint/keyprint.go:15-24 *)
Definition keyprint_certificate (certs : list bytes) : list bytes := map keyprint_bytes certs.

(** FromFile, keyprint/keyprint.go:40-61, after reading [data]; [pem] is pem.Decode. *)
Variable pem : bytes -> option (bytes * bytes * bytes). (* type, contents, rest *)
Definition err_pem : error := EText "invalid PEM file, or missing a CERTIFICATE block".
(** The loop of FromFile, keyprint/keyprint.go:46-56; fuel: pem.Decode shortens its input *)
Fixpoint pem_loop (fuel : nat) (data : bytes) (kps : list bytes) : option (list bytes) :=
  match fuel with
  | O => None
  | S f => match pem data with
           | None => Some kps
           | Some (typ, b, rest) =>
               if bytes_eqb typ (B "CERTIFICATE") then pem_loop f rest (kps ++ [keyprint_bytes b])
               else pem_loop f rest kps
           end
  end.
(** FromFile, keyprint/keyprint.go:40-61 *)
Definition keyprint_file (fuel : nat) (data : bytes) : option (res (list bytes)) :=
  match pem_loop fuel data [] with
  | None => None
  | Some [] => Some (Err err_pem)
  | Some kps => Some (Ok kps)
  end.

(** GetKeyPrints and VerifyKeyPrint, keyprint/tlskp/tlskp.go:20-40, for the raw peer
    certificates: all keyprints and whether one of them matches. *)
Definition get_keyprints (certs : list bytes) : list bytes := map keyprint_bytes certs.
(** VerifyKeyPrint, keyprint/tlskp/tlskp.go:30-40 *)
Definition verify_keyprint (certs : list bytes) (kp : bytes) : list bytes * bool :=
  let kps := get_keyprints certs in (kps, existsb (fun k => bytes_eqb k kp) kps).
End KeyPrint.
