(** Properties C17-C25: tree hashes, hash texts, session identifiers and key prints. *)
From Verif Require Import Base BaseFacts Base32 SpecHash Tiger Base32Facts TigerFacts.

(** ** C17: TreeHash is the THEX root *)
Theorem C17_thex : forall H rs, filling rs -> exists h, tree_hash H rs = Ok h /\ thex H (delivered_by rs) h.
Proof. exact filling_thex. Qed.
Print Assumptions C17_thex.
(** The specification determines the root. *)
Theorem C17_thex_unique : forall H s h h', thex H s h -> thex H s h' -> h = h'.
Proof. exact thex_unique. Qed.
Print Assumptions C17_thex_unique.

(** A stand-in hash which makes the tree visible, and a file of 2 * 1024 + 1 bytes. *)
Definition show (b : bytes) : bytes := [n2b (N.of_nat (length b / 8)); hd x00 b].
Definition C17_reads : reads := [(repeat "a"%byte 1024, None); (repeat "b"%byte 1024, None); (B "c", Some EEOF)].
Example C17_reads_fill : filling C17_reads.
Proof.
  apply fl_full; [apply repeat_length|]. apply fl_full; [apply repeat_length|]. apply fl_short; [cbn; lia|now right].
Qed.
Example C17_tree : tree_hash show C17_reads = Ok (show (x01 :: show (x01 :: show (x00 :: repeat "a"%byte 1024) ++ show (x00 :: repeat "b"%byte 1024)) ++ show (x00 :: B "c"))).
Proof. vm_compute. reflexivity. Qed.
Example C17_empty : tree_hash (fun b => b) [] = Ok [x00].
Proof. reflexivity. Qed.
Example C17_five : tree_hash (fun b => b) [(B "a", None); (B "b", None); (B "c", None); (B "d", None); (B "e", None)] =
  Ok ([x01; x01; x01; x00] ++ B "a" ++ [x00] ++ B "b" ++ [x01; x00] ++ B "c" ++ [x00] ++ B "d" ++ [x00] ++ B "e").
Proof. vm_compute. reflexivity. Qed.

(** ** C18: leaves and stream agree *)
Theorem C18_agree : forall H rs,
  (forall l, tree_leaves H rs = Ok l -> forall m a, nth a m [] = l -> snd (leaves_tree_hash H m a) = tree_hash H rs) /\
  (forall e, tree_leaves H rs = Err e <-> tree_hash H rs = Err e) /\
  ((exists l, tree_leaves H rs = Ok l) <-> exists h, tree_hash H rs = Ok h).
Proof. exact stream_and_leaves. Qed.
Print Assumptions C18_agree.
Example C18_case : exists l, tree_leaves show C17_reads = Ok l /\ length l = 3 /\ snd (leaves_tree_hash show [[]; l] 1) = tree_hash show C17_reads.
Proof. eexists. split; [vm_compute; reflexivity|]. split; vm_compute; reflexivity. Qed.
Example C18_error : tree_leaves show [(B "x", None); ([], Some (EText "disk"))] = Err (EText "disk").
Proof. reflexivity. Qed.

(** ** C19: does the hash depend on the content only? *)
(** No: the boundaries of short reads become block boundaries; equal results would be a hash collision. *)
Theorem C19_chunking_refuted : exists rs1 rs2, delivered_by rs1 = delivered_by rs2 /\
  forall H h1 h2, tree_hash H rs1 = Ok h1 -> tree_hash H rs2 = Ok h2 -> h1 = h2 -> exists x y, x <> y /\ H x = H y.
Proof.
  exists [(B "a", None); (B "b", None)], [(B "ab", None)]. split; [reflexivity|]. intros H h1 h2 E1 E2 E.
  injection E1 as <-. injection E2 as <-. do 2 eexists. split; [|exact E]. discriminate.
Qed.
Print Assumptions C19_chunking_refuted.
(** No: an empty read without error is taken for the end of the file. *)
Theorem C19_empty_read_refuted : forall H d rest, d <> [] ->
  tree_hash H ((d, None) :: ([], None) :: rest) = tree_hash H [(d, Some EEOF)].
Proof. intros H d rest Hd. destruct d as [|c d]; [congruence|]. reflexivity. Qed.
Print Assumptions C19_empty_read_refuted.
(** Yes for readers which fill the buffer. Missing: other readers, for which it is false. *)
Theorem C19_content_partial : forall H rs1 rs2, filling rs1 -> filling rs2 -> delivered_by rs1 = delivered_by rs2 ->
  tree_hash H rs1 = tree_hash H rs2.
Proof.
  intros H rs1 rs2 F1 F2 E. destruct (filling_thex H rs1 F1) as (h1 & -> & T1). destruct (filling_thex H rs2 F2) as (h2 & -> & T2).
  rewrite E in T1. f_equal. exact (thex_unique H _ _ _ T1 T2).
Qed.
Print Assumptions C19_content_partial.
Example C19_case : filling [(B "ab", None)] /\ filling [(B "ab", Some EEOF)].
Proof. split; apply fl_short; cbn; auto; lia. Qed.

(** ** C20: Leaves.TreeHash *)
(** It crashes on an empty value. *)
Theorem C20_total_refuted : exists H m a, snd (leaves_tree_hash H m a) = Panic.
Proof. exists show, [[]], 0. reflexivity. Qed.
Print Assumptions C20_total_refuted.
(** Otherwise it returns the root over the leaves, and all arrays which existed before the call are unchanged. *)
Theorem C20_pure_partial : forall H m a, nth a m [] <> [] ->
  exists arr h, leaves_tree_hash H m a = (m ++ [arr], Ok h) /\ merkle H (nth a m []) h.
Proof. exact leaves_hash. Qed.
Print Assumptions C20_pure_partial.
Example C20_case : fst (leaves_tree_hash show [[B "x"]; [B "l"; B "m"; B "n"]] 1) =
  [[B "x"]; [B "l"; B "m"; B "n"]; [show (x01 :: show (x01 :: B "lm") ++ B "n"); B "n"; B "n"]].
Proof. vm_compute. reflexivity. Qed.

(** ** C21: text forms round-trip *)
Theorem C21_text : forall h, length h = 24 ->
  length (hash_base32 h) = 39 /\ spells (hash_base32 h) (flat_map bits8 h ++ [false; false; false]).
Proof. exact hash_text. Qed.
Print Assumptions C21_text.
Theorem C21_roundtrip : forall h h0, length h = 24 -> length h0 = 24 ->
  hash_from_base32 h0 (hash_base32 h) = (Ok tt, h) /\
  hash_unmarshal_base32 h0 (hash_base32 h) = (Ok tt, h) /\
  cid_from_base32 h0 (hash_base32 h) = (Ok tt, h) /\
  hash_marshal_adc h = Ok (hash_base32 h) /\
  hash_marshal_base32 (repeat x00 39) h = Some (hash_base32 h) /\
  must_parse_base32 (hash_base32 h) = Ok h.
Proof. exact hash_roundtrips. Qed.
Print Assumptions C21_roundtrip.
Theorem C21_injective : forall a b, length a = 24 -> length b = 24 -> hash_base32 a = hash_base32 b -> a = b.
Proof. exact hash_text_inj. Qed.
Print Assumptions C21_injective.
Definition C21_hash : bytes := map (fun n => n2b (N.of_nat (17 * n + 3))) (seq 0 24).
Example C21_case : hash_base32 C21_hash = B "AMKCKNSHLBUXVC44VW7M7YHRAIJSINKGK5UHTCQ" /\ length C21_hash = 24.
Proof. vm_compute. split; reflexivity. Qed.

(** ** C22: which texts are hashes *)
(** Not only 39 symbols: a byte 0xFF and up to seven arbitrary bytes may follow. *)
Theorem C22_only_symbols_refuted : exists h0 s, length h0 = 24 /\ hash_from_base32 h0 s = (Ok tt, h0) /\ length (unbroken s) <> 39.
Proof.
  exists (repeat x00 24), (repeat "A"%byte 39 ++ xff :: B "garbage"). split; [reflexivity|]. split; [vm_compute; reflexivity|]. vm_compute. discriminate.
Qed.
Print Assumptions C22_only_symbols_refuted.
(** The exact set: after removal of CR and LF, 39 symbols whose first 192 bits are the hash
    (three bits are ignored), then nothing or 0xFF and at most seven bytes. *)
Theorem C22_accepts : forall h0 s h, length h0 = 24 ->
  (hash_from_base32 h0 s = (Ok tt, h) <-> length h = 24 /\
   exists t tail r, unbroken s = t ++ tail /\ length t = 39 /\ ignored_tail tail /\ length r = 3 /\ spells t (flat_map bits8 h ++ r)).
Proof. exact from_base32_ok. Qed.
Print Assumptions C22_accepts.
Theorem C22_total : forall h0 s,
  fst (hash_from_base32 h0 s) <> Panic /\ (fst (hash_from_base32 h0 s) <> Ok tt -> snd (hash_from_base32 h0 s) = h0).
Proof. exact from_base32_total. Qed.
Print Assumptions C22_total.
(** MustParseBase32 returns the hash for the same texts and panics for all others. *)
Theorem C22_must_parse : forall s,
  (forall h, must_parse_base32 s = Ok h <-> length h = 24 /\
   exists t tail r, unbroken s = t ++ tail /\ length t = 39 /\ ignored_tail tail /\ length r = 3 /\ spells t (flat_map bits8 h ++ r)) /\
  ((forall h, must_parse_base32 s <> Ok h) <-> must_parse_base32 s = Panic).
Proof. exact must_parse_exact. Qed.
Print Assumptions C22_must_parse.
Example C22_must_case : must_parse_base32 (B "AMKCKNSHLBUXVC44VW7M7YHRAIJSINKGK5UHTCQ") = Ok C21_hash /\
  must_parse_base32 (B "AMKCKNSHLBUXVC44VW7M7YHRAIJSINKGK5UHTC1") = Panic /\ must_parse_base32 [] = Panic.
Proof. vm_compute. auto. Qed.
Example C22_case : hash_from_base32 (repeat x00 24) (B "AMKCKNSHLBUXVC44VW7M" ++ [x0d; x0a] ++ B "7YHRAIJSINKGK5UHTCX") = (Ok tt, C21_hash) /\
  fst (hash_from_base32 (repeat x00 24) (B "AMKCKNSHLBUXVC44VW7M7YHRAIJSINKGK5UHTC")) <> Ok tt /\
  fst (hash_from_base32 (repeat x00 24) (B "AMKCKNSHLBUXVC44VW7M7YHRAIJSINKGK5UHTC1")) <> Ok tt.
Proof. vm_compute. repeat split; discriminate. Qed.

(** ** C23: decoding in place *)
(** It crashes on 40 symbols. *)
Theorem C23_no_crash_refuted : exists h0 s, length h0 = 24 /\ length s = 40 /\ fst (hash_unmarshal_base32 h0 s) = Panic.
Proof. exists (repeat x00 24), (repeat "A"%byte 40). repeat split; vm_compute; reflexivity. Qed.
Print Assumptions C23_no_crash_refuted.
(** It crashes exactly on inputs which, without CR and LF, start with 40 symbols. *)
Theorem C23_crash_exactly : forall h0 s, length h0 = 24 ->
  (fst (hash_unmarshal_base32 h0 s) = Panic <-> starts_with_symbols 40 (unbroken s)).
Proof. exact unmarshal_panics. Qed.
Print Assumptions C23_crash_exactly.
(** Otherwise it accepts the same texts as FromBase32, with the same hash. *)
Theorem C23_agrees_partial : forall h0 s, length h0 = 24 -> fst (hash_unmarshal_base32 h0 s) <> Panic ->
  fst (hash_unmarshal_base32 h0 s) = fst (hash_from_base32 h0 s) /\
  (fst (hash_from_base32 h0 s) = Ok tt -> snd (hash_unmarshal_base32 h0 s) = snd (hash_from_base32 h0 s)).
Proof. exact unmarshal_agrees. Qed.
Print Assumptions C23_agrees_partial.
Example C23_case : fst (hash_unmarshal_base32 (repeat x00 24) (repeat "A"%byte 39)) = Ok tt /\
  fst (hash_unmarshal_base32 (repeat x00 24) (repeat "A"%byte 39 ++ B "1")) <> Panic.
Proof. vm_compute. split; [reflexivity|discriminate]. Qed.

(** ** C24: session identifiers *)
Theorem C24_symbols : forall v, exists vs, length (sid_from_int v) = 4 /\ Forall2 symbol (sid_from_int v) vs.
Proof. exact sid_symbols. Qed.
Print Assumptions C24_symbols.
Theorem C24_faithful : forall v w, sid_from_int v = sid_from_int w <-> (v mod 2 ^ 20 = w mod 2 ^ 20)%N.
Proof. exact sid_equal. Qed.
Print Assumptions C24_faithful.
(** Text of any other length than four is refused: by an error when decoding, by a panic in
    SIDFromString. *)
Theorem C24_text : forall s,
  (forall id, sid_unmarshal s = Ok id <-> length s = 4 /\ id = s) /\
  (forall id, sid_from_string s = Ok id <-> length s = 4 /\ id = s) /\
  (sid_from_string s = Panic <-> length s <> 4) /\ sid_unmarshal s <> Panic.
Proof. exact sid_text. Qed.
Print Assumptions C24_text.
Example C24_text_case : sid_from_string (B "AB~ ") = Ok (B "AB~ ") /\ sid_from_string (B "AAA") = Panic.
Proof. vm_compute. auto. Qed.
Example C24_case : sid_from_int 1000000 = B "6QSA" /\ sid_from_int (1000000 + 2 ^ 20) = B "6QSA" /\ sid_from_int 2 = B "AAAC".
Proof. vm_compute. auto. Qed.

(** ** C25: key prints *)
Theorem C25_form : forall sha256 b, length (sha256 b) = 32 ->
  exists t vs, keyprint_bytes sha256 b = B "SHA256/" ++ t /\ length t = 52 /\ Forall2 symbol t vs.
Proof. exact keyprint_form. Qed.
Print Assumptions C25_form.
Theorem C25_equal : forall sha256 a b, keyprint_bytes sha256 a = keyprint_bytes sha256 b <-> sha256 a = sha256 b.
Proof. exact keyprint_equal. Qed.
Print Assumptions C25_equal.
Theorem C25_verify : forall sha256 certs kp,
  fst (verify_keyprint sha256 certs kp) = map (keyprint_bytes sha256) certs /\
  (snd (verify_keyprint sha256 certs kp) = true <-> exists c, In c certs /\ kp = keyprint_bytes sha256 c).
Proof. exact verify_accepts. Qed.
Print Assumptions C25_verify.
Theorem C25_file : forall sha256 pem data l, pem_blocks pem data l -> exists f0, forall f, f0 <= f ->
  keyprint_file sha256 pem f data =
  Some (match certificates l with [] => Err err_pem | cs => Ok (map (keyprint_bytes sha256) cs) end).
Proof. exact keyprint_file_ok. Qed.
Print Assumptions C25_file.
Theorem C25_certificate : forall sha256 certs i,
  length (keyprint_certificate sha256 certs) = length certs /\
  forall c, nth_error certs i = Some c -> exists kp, nth_error (keyprint_certificate sha256 certs) i = Some kp /\
    forall b, kp = keyprint_bytes sha256 b <-> sha256 b = sha256 c.
Proof. exact keyprint_each. Qed.
Print Assumptions C25_certificate.
(** A toy PEM syntax: type byte, content byte. *)
Definition toy_pem (s : bytes) : option (bytes * bytes * bytes) :=
  match s with
  | c :: d :: r => Some (if beq c "c" then B "CERTIFICATE" else B "RSA PRIVATE KEY", [d], r)
  | _ => None
  end.
Definition toy_sha (b : bytes) : bytes := firstn 32 (b ++ repeat x00 32).
Example C25_case : certificates [(B "RSA PRIVATE KEY", B "1"); (B "CERTIFICATE", B "2"); (B "CERTIFICATE", B "3")] = [B "2"; B "3"] /\
  pem_blocks toy_pem (B "k1c2c3") [(B "RSA PRIVATE KEY", B "1"); (B "CERTIFICATE", B "2"); (B "CERTIFICATE", B "3")] /\
  keyprint_file toy_sha toy_pem 9 (B "k1c2c3") = Some (Ok [keyprint_bytes toy_sha (B "2"); keyprint_bytes toy_sha (B "3")]) /\
  snd (verify_keyprint toy_sha [B "2"; B "3"] (keyprint_bytes toy_sha (B "3"))) = true /\
  snd (verify_keyprint toy_sha [B "2"; B "3"] (B "SHA256/")) = false.
Proof.
  split; [reflexivity|]. split; [|vm_compute; auto]. repeat (eapply pb_more; [reflexivity|]). now constructor.
Qed.
