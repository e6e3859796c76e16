(** Accessors of packets (C121) and the remaining text forms of hashes (C122). *)
From Verif Require Import Base BaseFacts Num Base32 Tiger AdcText AdcValue AdcMessage AdcPacket AdcAccess SpecText SpecHash SpecAdc SpecAdcMessage SpecAdcRead SpecAccess.
From Verif Require Import AdcMessageFacts AdcPacketFacts AdcReadFacts AdcReadPackets TigerFacts.

(** ** C121: accessors *)

(** Of a line that is accepted, Kind is the first character, the command the next three, Source the characters 6 to 9 of
    the kinds B, D, E and F, and Target the characters 11 to 14 of the kinds D and E; other packets have none. *)
Theorem C121_line sp q p : ~ In x0a q -> decode_packet_raw sp (q ++ [x0a]) = Ok p ->
  exists k name rest, q = k :: name ++ rest /\ length name = 3 /\ kind_of p = k /\ cmd (message p) = name /\
    source p = (if existsb (beq k) (B "BDEF") then Some (firstn 4 (skipn 5 (q ++ [x0a]))) else None) /\
    target p = (if existsb (beq k) (B "DE") then Some (firstn 4 (skipn 10 (q ++ [x0a]))) else None).
Proof.
  intros N H. assert (G := decoded_sids sp q p N H). apply packet_iff in H. destruct H as (k & name & data & F & _ & D).
  assert (Q : exists rest, q = k :: name ++ rest /\ length name = 3).
  { destruct F as [L F]. assert (X : exists t, t <> [] /\ q ++ [x0a] = k :: name ++ t).
    { destruct F as [F|(d & -> & F)]; [exists (" "%byte :: data)|exists (x0a :: d)]; split; [discriminate|exact F|discriminate|exact F]. }
    destruct X as (t & T & X). exists (removelast t). split; [|exact L].
    rewrite <- (removelast_last q x0a), X. change (k :: name ++ t) with ((k :: name) ++ t). now rewrite removelast_app. }
  destruct Q as (rest & Q & L). exists k, name, rest. split; [exact Q|]. split; [exact L|].
  inversion D; subst p k; cbn [kind_of message cmd source target sids] in *.
  all: split; [reflexivity|]; split; [reflexivity|]; vm_compute (existsb _ _); split; try reflexivity; f_equal; tauto.
Qed.
Print Assumptions C121_line.

(** SetMessage changes the message only, and Message returns it. *)
Theorem C121_set m p : message (set_message m p) = m /\ kind_of (set_message m p) = kind_of p /\
  source (set_message m p) = source p /\ target (set_message m p) = target p /\
  (forall m', set_message m' (set_message m p) = set_message m' p) /\ set_message (message p) p = p.
Proof. destruct p; repeat split. Qed.
Print Assumptions C121_set.

(** DecodeMessage changes nothing but the message, whose command stays, and decodes it once and for all. *)
Theorem C121_decode pf p p' : decode_message pf p = Ok p' ->
  set_message (message p) p' = p /\ cmd (message p') = cmd (message p) /\ decode_message pf p' = Ok p'.
Proof.
  intros H. unfold decode_message in H. destruct (message p) eqn:M.
  1-10: injection H as <-; split; [rewrite <- M; now destruct p|]; split; [now rewrite M|]; unfold decode_message; now rewrite M.
  apply bind_ok in H. destruct H as (m & U & [= <-]).
  assert (K : cmd m = typ /\ (forall t' d', m = ARaw t' d' -> unmarshal_message pf t' d' = Ok m)).
  { unfold unmarshal_message in U. destruct (registered typ) as [m0|] eqn:R.
    - apply find_some in R. destruct R as [R1 R2]. apply bytes_eqb_true in R2. subst typ.
      assert (X : cmd m = cmd m0 /\ forall t' d', m <> ARaw t' d').
      { destruct m0; cbn [unmarshal] in U; try (apply bind_ok in U; destruct U as (? & _ & [= <-])); try (injection U as <-); split; try reflexivity; try discriminate.
        exfalso. revert R1. clear. vm_compute. intuition discriminate. }
      split; [apply X|]. intros t' d' E. now apply X in E.
    - injection U as <-. split; [reflexivity|]. intros t' d' [= -> ->]. unfold unmarshal_message. now rewrite R. }
  destruct K as [K1 K2]. split; [rewrite <- M; now destruct p|]. split; [now destruct p|].
  unfold decode_message. assert (E : message (set_message m p) = m) by now destruct p. rewrite E.
  destruct m; try reflexivity. rewrite (K2 _ _ eq_refl). cbn [bind]. now destruct p.
Qed.
Print Assumptions C121_decode.
Example C121_case : decode_packet_raw 0 (B "DCTM AAAB BBBC ADC/1.0 7 t" ++ [x0a]) = Ok (PDirect (B "AAAB") (B "BBBC") (ARaw (B "CTM") (B "ADC/1.0 7 t"))) /\
  (exists m, decode_message (fun _ => FErr) (PDirect (B "AAAB") (B "BBBC") (ARaw (B "CTM") (B "ADC/1.0 7 t"))) = Ok (PDirect (B "AAAB") (B "BBBC") m) /\ cmd m = B "CTM") /\
  decode_message (fun _ => FErr) (PInfo (ARaw (B "XYZ") (B "a"))) = Ok (PInfo (ARaw (B "XYZ") (B "a"))).
Proof. split; [vm_compute; reflexivity|]. split; [|vm_compute; reflexivity]. eexists. split; vm_compute; reflexivity. Qed.

(** ** C122: hexadecimal text, zero values and parsing that panics *)

Lemma hex_digit_at n : (n < 16)%N -> nth_error (B "0123456789abcdef") (N.to_nat n) = Some (hex_digit n).
Proof.
  intros L. assert (K : forall k, k < 16 -> nth_error (B "0123456789abcdef") k = Some (hex_digit (N.of_nat k))) by (intros k H; do 16 (destruct k as [|k]; [reflexivity|]); lia).
  rewrite (K (N.to_nat n)) by lia. now rewrite N2Nat.id.
Qed.
(** Hex writes two lower case digits for each byte, the higher half first, and nothing else. *)
Theorem C122_hex : forall h t, hash_hex h = t <-> hex_text h t.
Proof.
  assert (A : forall h, hex_text h (hash_hex h)).
  { induction h as [|b h IH]; [constructor|]. cbn [hash_hex flat_map app]. fold (hash_hex h). assert (L := b2n_lt b).
    apply hx_byte with (b2n b / 16)%N (b2n b mod 16)%N; [apply N.div_mod'|now apply N.mod_upper_bound| | |exact IH]; apply hex_digit_at; [|now apply N.mod_upper_bound].
    apply N.div_lt_upper_bound; lia. }
  intros h t. split; [intros <-; apply A|]. intros H. induction H as [|b x y h t hi lo E L X Y _ IH]; [reflexivity|].
  cbn [hash_hex flat_map app]. fold (hash_hex h). rewrite IH, E. assert (M := b2n_lt b).
  rewrite (N.mul_comm 16 hi), N.div_add_l, (N.div_small lo 16), N.add_0_r, N.add_comm, N.mod_add, N.mod_small by lia.
  rewrite hex_digit_at in X, Y by lia. congruence.
Qed.
Print Assumptions C122_hex.
(** Different hashes have different texts. *)
Theorem C122_hex_injective : forall h h', hash_hex h = hash_hex h' -> h = h'.
Proof.
  intros h h' E. apply C122_hex in E. remember (hash_hex h') as t eqn:T. symmetry in T. apply C122_hex in T. revert h' T.
  induction E as [|b x y h t hi lo E L X Y _ IH]; intros h' T; inversion T as [|b' x' y' h'' t' hi' lo' E' L' X' Y' T']; subst; [reflexivity|].
  f_equal; [|now apply IH]. apply b2n_inj. rewrite E, E'. assert (M := b2n_lt b). assert (M' := b2n_lt b'). rewrite hex_digit_at in X, Y, X', Y' by lia.
  assert (D : forall n m, (n < 16)%N -> (m < 16)%N -> hex_digit n = hex_digit m -> n = m).
  { clear. assert (K : forall n m, n < 16 -> m < 16 -> hex_digit (N.of_nat n) = hex_digit (N.of_nat m) -> n = m).
    { intros n m A B. do 16 (destruct n as [|n]; [do 16 (destruct m as [|m]; [first [reflexivity|discriminate]|]); lia|]). lia. }
    intros n m A B H. rewrite <- (N2Nat.id n), <- (N2Nat.id m) in H. apply K in H; lia. }
  rewrite (D hi hi'), (D lo lo'); try lia; congruence.
Qed.
Print Assumptions C122_hex_injective.
(** A hash or CID is zero exactly when all its bytes are. *)
Theorem C122_zero : forall h, length h = 24 -> (hash_is_zero h = true <-> Forall (eq x00) h).
Proof.
  intros h L. unfold hash_is_zero. rewrite bytes_eqb_true. split.
  - intros ->. apply Forall_forall. intros x H. apply repeat_spec in H. now symmetry.
  - intros F. rewrite <- L. clear L. induction F as [|x h <- _ IH]; [reflexivity|]. cbn [length repeat]. congruence.
Qed.
Print Assumptions C122_zero.
(** MustParseCID returns what the text says or panics. *)
Theorem C122_cid : forall s,
  (forall h, must_parse_cid s = Ok h <-> length h = 24 /\
   exists t tail r, unbroken s = t ++ tail /\ length t = 39 /\ ignored_tail tail /\ length r = 3 /\ spells t (flat_map bits8 h ++ r)) /\
  ((forall h, must_parse_cid s <> Ok h) <-> must_parse_cid s = Panic).
Proof.
  intros s. assert (E : must_parse_cid s = must_parse_base32 s).
  { unfold must_parse_cid, must_parse_base32, cid_from_base32. change hash_size with 24. now destruct (hash_from_base32 (repeat x00 24) s) as [[]]. }
  rewrite E. apply must_parse_exact.
Qed.
Print Assumptions C122_cid.
Example C122_case : hash_hex (B "Az" ++ [x00; xff]) = B "417a00ff" /\ hex_text (B "A") (B "41") /\ hash_is_zero (repeat x00 24) = true /\
  hash_is_zero (repeat x00 23 ++ [x01]) = false /\ must_parse_cid (B "AMKC") = Panic /\
  must_parse_cid (repeat "A"%byte 39) = Ok (repeat x00 24).
Proof. split; [vm_compute; reflexivity|]. split; [now apply C122_hex|]. vm_compute. auto. Qed.
