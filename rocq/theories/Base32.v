(** encoding/base32.StdEncoding.WithPadding(NoPadding), as used by tiger/tiger.go:36,
    keyprint/keyprint.go:26 and adc/hub.go:61.

    Modelled after the source of the standard library: Encode works on groups of five
    bytes, decode on groups of eight symbols.  NoPadding is the rune -1, which decode
    compares as byte(-1) = 0xFF, so the byte 0xFF acts as a padding character. *)
From Verif Require Import Base.

(** The alphabet: encoding/base32 encodeStd and adc/types/types.go:12. *)
Definition alphabet : bytes := B "ABCDEFGHIJKLMNOPQRSTUVWXYZ234567".

(** enc.encode[v&31] (base32Enc of tiger/tiger.go:36). *)
Definition sym (v : N) : byte := nth (N.to_nat (N.land v 31)) alphabet x00.

(** enc.decodeMap[c]; [None] is 0xFF (base32Enc of tiger/tiger.go:36). *)
Definition sym_value (c : byte) : option N := option_map N.of_nat (index_byte c alphabet).

(** A byte-sized shift to the left, [byte << k] (base32Enc of tiger/tiger.go:36). *)
Definition shl (v k : N) : N := N.land (N.shiftl v k) 255.

(** One group of Encode: the symbol values of up to five bytes.  A missing byte is
    treated as 0, and only the first [n] of the eight values are meaningful:
    base32 Encode, [switch len(src)] (base32Enc of tiger/tiger.go:36). *)
Definition group_values (s0 s1 s2 s3 s4 : N) : list N :=
  [N.shiftr s0 3;
   N.lor (N.land (N.shiftr s1 6) 31) (N.land (shl s0 2) 31);
   N.land (N.shiftr s1 1) 31;
   N.lor (N.land (N.shiftr s2 4) 31) (N.land (shl s1 4) 31);
   N.lor (N.shiftr s3 7) (N.land (shl s2 1) 31);
   N.land (N.shiftr s3 2) 31;
   N.lor (N.shiftr s4 5) (N.land (shl s3 3) 31);
   N.land s4 31].

(** Encode(dst, src): [None] is the panic of [dst = dst[8:]] on a short buffer.  The
    final group fills [dst] up to eight symbols (base32Enc of tiger/tiger.go:36). *)
Fixpoint b32_encode_to (dst src : bytes) {struct src} : option bytes :=
  let put vs := map sym (firstn (length dst) vs) ++ skipn 8 dst in
  match src with
  | [] => Some dst
  | [a] => Some (put (group_values (b2n a) 0 0 0 0))
  | [a; b] => Some (put (group_values (b2n a) (b2n b) 0 0 0))
  | [a; b; c] => Some (put (group_values (b2n a) (b2n b) (b2n c) 0 0))
  | [a; b; c; d] => Some (put (group_values (b2n a) (b2n b) (b2n c) (b2n d) 0))
  | a :: b :: c :: d :: e :: t =>
      if (length dst <? 8)%nat then None
      else match b32_encode_to (skipn 8 dst) t with
           | None => None
           | Some r => Some (map sym (group_values (b2n a) (b2n b) (b2n c) (b2n d) (b2n e)) ++ r)
           end
  end.

(** EncodedLen and DecodedLen without padding (base32Enc of tiger/tiger.go:36). *)
Definition b32_encoded_len (n : nat) : nat := (n * 8 + 4) / 5.
(** DecodedLen, adc/hub.go:85 *)
Definition b32_decoded_len (n : nat) : nat := n * 5 / 8.

(** EncodeToString(src): a buffer of EncodedLen bytes (tiger/tiger.go:72, adc/hub.go:76-79). *)
Definition b32_encode (src : bytes) : bytes :=
  match b32_encode_to (repeat x00 (b32_encoded_len (length src))) src with Some r => r | None => [] end.

(** stripNewlines (Decode called in tiger/tiger.go:83,95, adc/hub.go:87). *)
Definition strip_newlines (s : bytes) : bytes := filter (fun c => negb (beq c x0d || beq c x0a)) s.

(** The packing of [dlen] symbols, decode's [switch dlen]: other lengths give nothing
    (base32Enc of tiger/tiger.go:36). *)
Definition pack (vs : list N) : bytes :=
  let v i := nth i vs 0%N in
  let b0 := n2b (N.lor (shl (v 0) 3) (N.shiftr (v 1) 2)) in
  let b1 := n2b (N.lor (N.lor (shl (v 1) 6) (shl (v 2) 1)) (N.shiftr (v 3) 4)) in
  let b2 := n2b (N.lor (shl (v 3) 4) (N.shiftr (v 4) 1)) in
  let b3 := n2b (N.lor (N.lor (shl (v 4) 7) (shl (v 5) 2)) (N.shiftr (v 6) 3)) in
  let b4 := n2b (N.lor (shl (v 6) 5) (v 7)) in
  match length vs with
  | 2 => [b0] | 4 => [b0; b1] | 5 => [b0; b1; b2] | 7 => [b0; b1; b2; b3] | 8 => [b0; b1; b2; b3; b4]
  | _ => []
  end%nat.

(** base32.CorruptInputError (base32Enc of tiger/tiger.go:36). *)
Definition err_corrupt : error := EText "illegal base32 data".

(** decode of the bytes [src] after the symbols [vs] of an incomplete group: the decoded
    bytes and the error.  The second branch is the treatment of the padding character
    (base32Enc of tiger/tiger.go:36). *)
Fixpoint b32_decode (vs : list N) (src : bytes) : bytes * option error :=
  match src with
  | [] => (pack vs, None)
  | c :: t =>
      let j := length vs in
      if (beq c xff && (2 <=? j)%nat && (length t <? 8)%nat)%bool then
        if (length t + j <? 7)%nat then ([], Some err_corrupt)
        else if negb (forallb (fun x => beq x xff) (firstn (7 - j) t)) then ([], Some err_corrupt)
        else if ((j =? 3) || (j =? 6))%nat%bool then ([], Some err_corrupt)
        else (pack vs, None)
      else
        match sym_value c with
        | None => ([], Some err_corrupt)
        | Some v =>
            let vs' := vs ++ [v] in
            if (length vs' =? 8)%nat then
              let '(out, e) := b32_decode [] t in (pack vs' ++ out, e)
            else b32_decode vs' t
        end
  end.

(** Decode(dst, src): the new contents of [dst], the number of bytes and the error;
    [None] is the index panic when [dst] is too short (tiger/tiger.go:83, adc/hub.go:87). *)
Definition b32_decode_to (dst src : bytes) : option (bytes * nat * option error) :=
  let '(out, e) := b32_decode [] (strip_newlines src) in
  if (length dst <? length out)%nat then None
  else Some (out ++ skipn (length out) dst, length out, e).

(** DecodeString(s) (tiger/tiger.go:95). *)
Definition b32_decode_string (s : bytes) : bytes * option error := b32_decode [] (strip_newlines s).
