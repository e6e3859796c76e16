(** Proofs about hash texts, session identifiers, tree hashes and key prints. *)
From Verif Require Import Base BaseFacts Base32 Base32Facts SpecHash Tiger.

Lemma Forall2_len {A C} (R : A -> C -> Prop) l l' : Forall2 R l l' -> length l = length l'.
Proof. induction 1; cbn; congruence. Qed.

(** ** Hash texts *)
Lemma hash_text h : length h = 24 ->
  length (hash_base32 h) = 39 /\ spells (hash_base32 h) (flat_map bits8 h ++ [false; false; false]).
Proof.
  intros Hh. destruct (base32_text h) as (k & Hk & (vs & Hs & E) & Hl). rewrite Hh in Hl. change (b32_encoded_len 24) with 39 in Hl.
  split; [exact Hl|]. exists vs. split; [exact Hs|]. rewrite <- E. f_equal.
  pose proof (f_equal (@length bool) E) as L. rewrite app_length, flat_map_bits8_length, flat_map_bits5_length, repeat_length, Hh in L.
  apply Forall2_len in Hs. change (hash_base32 h) with (b32_encode h) in *. rewrite Hl in Hs. rewrite <- Hs in L.
  replace k with 3 by lia. reflexivity.
Qed.

Lemma hash_roundtrips h h0 : length h = 24 -> length h0 = 24 ->
  hash_from_base32 h0 (hash_base32 h) = (Ok tt, h) /\
  hash_unmarshal_base32 h0 (hash_base32 h) = (Ok tt, h) /\
  cid_from_base32 h0 (hash_base32 h) = (Ok tt, h) /\
  hash_marshal_adc h = Ok (hash_base32 h) /\
  hash_marshal_base32 (repeat x00 39) h = Some (hash_base32 h) /\
  must_parse_base32 (hash_base32 h) = Ok h.
Proof.
  intros Hh H0. pose proof (base32_roundtrip h) as R. unfold b32_decode_string in R.
  assert (A : forall g, length g = 24 -> hash_from_base32 g (hash_base32 h) = (Ok tt, h)).
  { intros g Hg. unfold hash_from_base32, b32_decode_string, hash_base32. rewrite R, Hh. cbn [hash_size Nat.eqb].
    rewrite skipn_all2 by lia. now rewrite app_nil_r. }
  assert (M : hash_marshal_base32 (repeat x00 39) h = Some (hash_base32 h)).
  { unfold hash_marshal_base32, hash_base32. rewrite encode_to_exact by (now rewrite repeat_length, Hh). now rewrite encode_values. }
  split; [now apply A|]. split.
  { unfold hash_unmarshal_base32, b32_decode_to, hash_base32. rewrite R, Hh, H0. cbn [Nat.ltb Nat.leb hash_size Nat.eqb].
    rewrite skipn_all2 by lia. now rewrite app_nil_r. }
  split. { unfold cid_from_base32. now rewrite A by reflexivity. }
  split. { unfold hash_marshal_adc. change base32_size with 39. now rewrite M. }
  split; [exact M|]. unfold must_parse_base32. now rewrite A.
Qed.

Lemma hash_text_inj a b : length a = 24 -> length b = 24 -> hash_base32 a = hash_base32 b -> a = b.
Proof.
  intros Ha Hb E. destruct (hash_roundtrips a a Ha Ha) as [A _]. destruct (hash_roundtrips b a Hb Ha) as [C _]. rewrite E in A. congruence.
Qed.

(** Which texts are accepted. *)
Definition ignored_tail (tail : bytes) : Prop := tail = [] \/ exists x, tail = xff :: x /\ length x <= 7.

Lemma pad_7 tail : pad_ok 7 tail = true <-> ignored_tail tail.
Proof.
  unfold ignored_tail. destruct tail as [|c t]; [cbn; intuition|]. cbn [pad_ok]. change (7 - 7) with 0. cbn [firstn forallb Nat.eqb orb negb].
  split.
  - intros H. destruct (beq c xff) eqn:H1; [|discriminate]. destruct (Nat.ltb_spec (length t) 8) as [H2|H2]; [|discriminate].
    apply beq_true in H1. right. exists t. split; [congruence|lia].
  - intros [H|(x & E & Hl)]; [discriminate|]. injection E as -> ->. rewrite beq_refl. cbn [andb Nat.leb].
    destruct (Nat.ltb_spec (length x) 8); [|lia]. destruct (Nat.ltb_spec (length x + 7) 7); [lia|]. reflexivity.
Qed.

Lemma decoded_24 n : decoded n = 24 -> n = 39.
Proof.
  unfold decoded. intros H. pose proof (Nat.div_mod n 8 ltac:(lia)) as D. pose proof (Nat.mod_upper_bound n 8 ltac:(lia)) as U.
  remember (n / 8) as q. remember (n mod 8) as r.
  assert (K : r = 0 \/ r = 1 \/ r = 2 \/ r = 3 \/ r = 4 \/ r = 5 \/ r = 6 \/ r = 7) by lia.
  destruct K as [-> | [-> | [-> | [-> | [-> | [-> | [-> | ->]]]]]]]; cbv [pack_bits] in H; cbn in H; lia.
Qed.

Lemma bits_of_39 ws : Forall (fun v => v < 32)%N ws -> length ws = 39 ->
  length (packs ws) = 24 /\ exists r, length r = 3 /\ flat_map bits5 ws = flat_map bits8 (packs ws) ++ r.
Proof.
  intros Hw Hl. destruct (packs_length ws) as [P _]. rewrite Hl in P. change (decoded 39) with 24 in P. split; [exact P|].
  destruct (packs_bits ws Hw) as (r & E). exists r. split; [|exact E].
  apply (f_equal (@length bool)) in E. rewrite app_length, flat_map_bits8_length, flat_map_bits5_length, P, Hl in E. lia.
Qed.

Lemma decode_hash s b : b32_decode [] s = (b, None) -> length b = 24 ->
  exists t tail r, s = t ++ tail /\ length t = 39 /\ ignored_tail tail /\ length r = 3 /\ spells t (flat_map bits8 b ++ r).
Proof.
  intros E Hb. destruct (decode_char s [] ltac:(cbn; lia)) as (ws & tail & -> & Hw & Ht & D). rewrite E in D. cbn [app] in D.
  destruct (pad_ok (length ws mod 8) tail) eqn:P; [|discriminate]. injection D as ->.
  destruct (packs_length ws) as [L _]. rewrite Hb in L. symmetry in L. apply decoded_24 in L.
  destruct (bits_of_39 ws Hw L) as (_ & r & Hr & Er). rewrite L in P. change (39 mod 8) with 7 in P. apply pad_7 in P.
  exists (map sym ws), tail, r. split; [reflexivity|]. split; [now rewrite map_length|]. split; [exact P|]. split; [exact Hr|].
  exists ws. split; [now apply symbols_map|]. now symmetry.
Qed.

Lemma symbols_prefix_unique : forall ws t ws' t', Forall (fun v => v < 32)%N ws -> Forall (fun v => v < 32)%N ws' ->
  match t with [] => True | c :: _ => sym_value c = None end -> match t' with [] => True | c :: _ => sym_value c = None end ->
  map sym ws ++ t = map sym ws' ++ t' -> ws = ws' /\ t = t'.
Proof.
  induction ws as [|v ws IH]; intros t [|v' ws'] t' H1 H2 H3 H4 E; cbn [map app] in E.
  - auto.
  - subst t. inversion H2; subst. rewrite (proj1 (proj2 (sym_facts v' ltac:(assumption)))) in H3. discriminate.
  - subst t'. inversion H1; subst. rewrite (proj1 (proj2 (sym_facts v ltac:(assumption)))) in H4. discriminate.
  - injection E as E1 E. inversion H1; subst. inversion H2; subst. destruct (IH t ws' t') as [-> ->]; auto. split; [|reflexivity].
    f_equal. pose proof (proj1 (proj2 (sym_facts v ltac:(assumption)))) as A. pose proof (proj1 (proj2 (sym_facts v' ltac:(assumption)))) as A'.
    rewrite E1 in A. congruence.
Qed.

Lemma ff_no_symbol : sym_value xff = None. Proof. reflexivity. Qed.
Lemma ignored_no_symbol tail : ignored_tail tail -> match tail with [] => True | c :: _ => sym_value c = None end.
Proof. intros [->|(x & -> & _)]; [exact I|reflexivity]. Qed.

Lemma hash_decodes t tail r h : length t = 39 -> ignored_tail tail -> length h = 24 -> length r = 3 -> spells t (flat_map bits8 h ++ r) ->
  b32_decode [] (t ++ tail) = (h, None).
Proof.
  intros Hl Ht Hh Hr (vs & Hs & E). apply symbols_map_inv in Hs. destruct Hs as [-> Hv]. rewrite map_length in Hl.
  destruct (decode_char (map sym vs ++ tail) [] ltac:(cbn; lia)) as (ws & tail' & Es & Hw & Ht' & D).
  apply symbols_prefix_unique in Es; auto; [|now apply ignored_no_symbol]. destruct Es as [<- <-]. rewrite D. cbn [app]. rewrite Hl.
  change (39 mod 8) with 7. rewrite (proj2 (pad_7 tail) Ht). f_equal.
  destruct (bits_of_39 vs Hv Hl) as (Hp & r' & Hr' & E'). rewrite E' in E. apply app_inv_len in E.
  - symmetry. now apply bits_bytes_inj.
  - rewrite !flat_map_bits8_length. lia.
Qed.

Lemma from_base32_ok h0 s h : length h0 = 24 ->
  (hash_from_base32 h0 s = (Ok tt, h) <-> length h = 24 /\
   exists t tail r, unbroken s = t ++ tail /\ length t = 39 /\ ignored_tail tail /\ length r = 3 /\ spells t (flat_map bits8 h ++ r)).
Proof.
  intros H0. unfold hash_from_base32, b32_decode_string. rewrite strip_unbroken. split.
  - destruct (b32_decode [] (unbroken s)) as [b [e|]] eqn:D; [discriminate|].
    destruct (Nat.eqb_spec (length b) hash_size) as [Hb|]; [|discriminate]. unfold hash_size in Hb. intros [= <-].
    rewrite skipn_all2 by lia. rewrite app_nil_r. split; [exact Hb|]. now apply decode_hash.
  - intros (Hh & t & tail & r & -> & Hl & Ht & Hr & Hs). rewrite (hash_decodes t tail r h) by assumption.
    rewrite Hh. cbn [hash_size Nat.eqb]. rewrite skipn_all2 by lia. now rewrite app_nil_r.
Qed.

Lemma from_base32_total h0 s : fst (hash_from_base32 h0 s) <> Panic /\ (fst (hash_from_base32 h0 s) <> Ok tt -> snd (hash_from_base32 h0 s) = h0).
Proof.
  unfold hash_from_base32. destruct (b32_decode_string s) as [b [e|]]; cbn; [split; [discriminate|auto]|].
  destruct (length b =? hash_size)%nat; cbn; split; try discriminate; auto. congruence.
Qed.

(** When the in-place decoder crashes, and its result otherwise. *)

Lemma decode_long s : (24 < length (fst (b32_decode [] s))) <-> starts_with_symbols 40 s.
Proof.
  destruct (decode_char s [] ltac:(cbn; lia)) as (ws & tail & -> & Hw & Ht & ->). cbn [app].
  destruct (packs_length ws) as [P F].
  assert (K : 24 < length (fst (if pad_ok (length ws mod 8) tail then (packs ws, None) else (fulls ws, Some err_corrupt))) <-> 40 <= length ws).
  { pose proof (Nat.div_mod (length ws) 8 ltac:(lia)) as D. pose proof (Nat.mod_upper_bound (length ws) 8 ltac:(lia)) as U.
    destruct (pad_ok (length ws mod 8) tail); cbn [fst]; rewrite ?P, ?F; unfold decoded.
    - assert (pack_bits (length ws mod 8) / 8 <= 4).
      { clear - U. destruct (length ws mod 8) as [|[|[|[|[|[|[|[|n]]]]]]]]; cbn; lia. }
      lia.
    - lia. }
  rewrite K. unfold starts_with_symbols. split.
  - intros Hl. exists (map sym (firstn 40 ws)), (map sym (skipn 40 ws) ++ tail), (firstn 40 ws). split; [|split].
    + rewrite app_assoc, <- map_app, firstn_skipn. reflexivity.
    + rewrite map_length, firstn_length. lia.
    + apply symbols_map. now apply firstn_Forall.
  - intros (t & rest & vs & E & Hl & Hs). apply symbols_map_inv in Hs. destruct Hs as [-> Hv]. rewrite map_length in Hl. rewrite <- Hl.
    clear - E Hv Ht Hw. revert ws E Hw. induction vs as [|v vs IH]; intros ws E Hw; [cbn; lia|].
    destruct ws as [|w ws]; cbn [map app] in E.
    + subst tail. inversion Hv; subst. rewrite (proj1 (proj2 (sym_facts v ltac:(assumption)))) in Ht. discriminate.
    + injection E as _ E. inversion Hv; subst. inversion Hw; subst. cbn [length]. specialize (IH ltac:(assumption) ws E ltac:(assumption)). lia.
Qed.

Lemma unmarshal_panics h0 s : length h0 = 24 ->
  (fst (hash_unmarshal_base32 h0 s) = Panic <-> starts_with_symbols 40 (unbroken s)).
Proof.
  intros H0. rewrite <- decode_long. unfold hash_unmarshal_base32, b32_decode_to. rewrite strip_unbroken.
  destruct (b32_decode [] (unbroken s)) as [b e]. cbn [fst]. rewrite H0.
  destruct (Nat.ltb_spec 24 (length b)) as [L|L].
  - split; [intros _; exact L|reflexivity].
  - split; [|lia]. destruct e as [e|]; [discriminate|]. destruct (length b =? hash_size)%nat; discriminate.
Qed.

Lemma unmarshal_agrees h0 s : length h0 = 24 -> fst (hash_unmarshal_base32 h0 s) <> Panic ->
  fst (hash_unmarshal_base32 h0 s) = fst (hash_from_base32 h0 s) /\
  (fst (hash_from_base32 h0 s) = Ok tt -> snd (hash_unmarshal_base32 h0 s) = snd (hash_from_base32 h0 s)).
Proof.
  intros H0. unfold hash_unmarshal_base32, b32_decode_to, hash_from_base32, b32_decode_string.
  destruct (b32_decode [] (strip_newlines s)) as [b e]. rewrite H0.
  destruct (Nat.ltb_spec 24 (length b)) as [L|L]; [cbn; congruence|].
  destruct e as [e|]; cbn [fst snd]; [split; [reflexivity|discriminate]|].
  destruct (Nat.eqb_spec (length b) hash_size); cbn [fst snd]; split; auto; discriminate.
Qed.

(** ** Session identifiers *)
Lemma alphabet_nth v : (v < 32)%N -> nth (N.to_nat v) alphabet x00 = sym v.
Proof. intros Hv. unfold sym. change 31%N with (N.ones 5). rewrite N.land_ones. now rewrite N.mod_small. Qed.

Lemma sid_digits v : sid_from_int v = map sym [v / 32 / 32 / 32 mod 32; v / 32 / 32 mod 32; v / 32 mod 32; v mod 32]%N.
Proof. unfold sid_from_int. cbn [sid_loop map]. rewrite !alphabet_nth; try (apply N.mod_lt; discriminate). reflexivity. Qed.

Lemma sid_symbols v : exists vs, length (sid_from_int v) = 4 /\ Forall2 symbol (sid_from_int v) vs.
Proof.
  eexists. split; [reflexivity|]. rewrite sid_digits. apply symbols_map. repeat constructor; apply N.mod_lt; discriminate.
Qed.

Lemma sym_inj a b : (a < 32)%N -> (b < 32)%N -> sym a = sym b -> a = b.
Proof.
  intros Ha Hb E. pose proof (proj1 (proj2 (sym_facts a Ha))) as A. pose proof (proj1 (proj2 (sym_facts b Hb))) as A'. rewrite E in A. congruence.
Qed.

Lemma mod_digits v : (v mod 2 ^ 20 = (((v / 32 / 32 / 32 mod 32) * 32 + v / 32 / 32 mod 32) * 32 + v / 32 mod 32) * 32 + v mod 32)%N.
Proof.
  change (2 ^ 20)%N with (32 * (32 * (32 * 32)))%N.
  rewrite !N.mod_mul_r by discriminate. lia.
Qed.

Lemma sid_equal v w : sid_from_int v = sid_from_int w <-> (v mod 2 ^ 20 = w mod 2 ^ 20)%N.
Proof.
  split.
  - rewrite !sid_digits. intros E. injection E as E0 E1 E2 E3.
    assert (L : forall x, (x mod 32 < 32)%N) by (intros; apply N.mod_lt; discriminate).
    apply sym_inj in E0, E1, E2, E3; auto. rewrite !mod_digits. congruence.
  - rewrite !mod_digits. intros E.
    assert (L : forall x, (x mod 32 < 32)%N) by (intros; apply N.mod_lt; discriminate).
    pose proof (L v). pose proof (L w). pose proof (L (v / 32)%N). pose proof (L (w / 32)%N). pose proof (L (v / 32 / 32)%N). pose proof (L (w / 32 / 32)%N).
    pose proof (L (v / 32 / 32 / 32)%N). pose proof (L (w / 32 / 32 / 32)%N).
    rewrite !sid_digits. remember (v mod 32)%N as a0. remember (w mod 32)%N as b0. remember (v / 32 mod 32)%N as a1. remember (w / 32 mod 32)%N as b1.
    remember (v / 32 / 32 mod 32)%N as a2. remember (w / 32 / 32 mod 32)%N as b2. remember (v / 32 / 32 / 32 mod 32)%N as a3. remember (w / 32 / 32 / 32 mod 32)%N as b3.
    assert (a0 = b0 /\ a1 = b1 /\ a2 = b2 /\ a3 = b3) as (-> & -> & -> & ->) by lia. reflexivity.
Qed.

(** ** Tree hash *)
Section Tree.
Variable H : bytes -> bytes.

(** Pairwise combination. *)
Fixpoint pairup (l : list bytes) : list bytes :=
  match l with
  | x :: y :: t => H (x01 :: x ++ y) :: pairup t
  | _ => l
  end.

Lemma pairup_length l : length (pairup l) = if (length l mod 2 =? 0)%nat then length l / 2 else length l / 2 + 1.
Proof.
  assert (K : forall n l, length l <= n -> length (pairup l) = if (length l mod 2 =? 0)%nat then length l / 2 else length l / 2 + 1).
  { induction n as [|n IH]; intros [|x [|y t]] Hl; cbn [length] in Hl; try lia; try reflexivity.
    cbn [pairup length]. rewrite IH by lia. replace (S (S (length t))) with (length t + 1 * 2) by lia.
    rewrite Nat.mod_add, Nat.div_add by lia. destruct (length t mod 2 =? 0)%nat; lia. }
  now apply (K (length l)).
Qed.

Lemma pairup_app : forall a b k, length a = 2 * k -> pairup (a ++ b) = pairup a ++ pairup b.
Proof.
  intros a b k. revert a. induction k as [|k IH]; intros a Ha.
  - destruct a; [reflexivity|discriminate].
  - destruct a as [|x [|y t]]; cbn in Ha; try lia. cbn [app pairup]. rewrite IH by lia. reflexivity.
Qed.

Lemma merkle_pairup : forall L h, merkle H L h -> forall l, pairup l = L -> merkle H l h.
Proof.
  induction 1 as [h|k a b ha hb Ha Hb Hma IHa Hmb IHb]; intros l E.
  - destruct l as [|x [|y t]]; cbn in E; try discriminate.
    + injection E as ->. constructor.
    + destruct t as [|z t]; [|destruct t; discriminate]. injection E as <-.
      apply (mk_node H 0 [x] [y]); cbn; try lia; constructor.
  - pose proof (f_equal (@length bytes) E) as L. rewrite app_length, pairup_length, Ha in L.
    assert (Hl : 2 * 2 ^ k < length l <= 2 * 2 ^ k + 2 * 2 ^ k).
    { pose proof (Nat.div_mod (length l) 2 ltac:(lia)). pose proof (Nat.mod_upper_bound (length l) 2 ltac:(lia)).
      destruct (Nat.eqb_spec (length l mod 2) 0); lia. }
    rewrite <- (firstn_skipn (2 * 2 ^ k) l) in E |- *. rewrite (pairup_app _ _ (2 ^ k)) in E by (rewrite firstn_length; lia).
    apply app_inv_len in E.
    + destruct E as [E1 E2]. apply (mk_node H (S k)); [rewrite firstn_length; cbn [Nat.pow]; lia|rewrite skipn_length; cbn [Nat.pow]; lia|now apply IHa|now apply IHb].
    + rewrite pairup_length, firstn_length. replace (Nat.min (2 * 2 ^ k) (length l)) with (2 ^ k * 2) by lia.
      rewrite Nat.mod_mul, Nat.div_mul by lia. symmetry. exact Ha.
Qed.

Lemma pow2_bracket k k' n : 2 ^ k < n <= 2 ^ k + 2 ^ k -> 2 ^ k' < n <= 2 ^ k' + 2 ^ k' -> k = k'.
Proof.
  intros H1 H2. destruct (Nat.lt_trichotomy k k') as [L|[E|L]]; [|exact E|]; exfalso.
  - assert (2 ^ S k <= 2 ^ k') by (apply Nat.pow_le_mono_r; lia). cbn [Nat.pow] in *. lia.
  - assert (2 ^ S k' <= 2 ^ k) by (apply Nat.pow_le_mono_r; lia). cbn [Nat.pow] in *. lia.
Qed.

Lemma pow2_pos k : 0 < 2 ^ k. Proof. pose proof (Nat.pow_nonzero 2 k). lia. Qed.

Lemma merkle_nonempty l h : merkle H l h -> 0 < length l.
Proof. induction 1; [cbn; lia|]. rewrite app_length. lia. Qed.

Lemma merkle_unique : forall l h, merkle H l h -> forall h', merkle H l h' -> h = h'.
Proof.
  induction 1 as [h|k a b ha hb Ha Hb Hma IHa Hmb IHb]; intros h' M.
  - inversion M as [|k a b ha hb Ha Hb Ma Mb E]; [reflexivity|]. apply (f_equal (@length bytes)) in E. rewrite app_length in E. cbn in E.
    pose proof (pow2_pos k). lia.
  - inversion M as [x E|k' a' b' ha' hb' Ha' Hb' Ma Mb E].
    + apply (f_equal (@length bytes)) in E. rewrite app_length in E. cbn in E. pose proof (pow2_pos k). lia.
    + assert (k' = k).
      { pose proof (f_equal (@length bytes) E) as L. rewrite !app_length in L. apply (pow2_bracket k' k (length a + length b)); lia. }
      subst k'. apply app_inv_len in E; [|lia]. destruct E as [-> ->]. now rewrite (IHa ha' Ma), (IHb hb' Mb).
Qed.

(** The in-place loops. *)
Lemma get_here pre arr post i : get (pre ++ arr :: post) (length pre) i = nth i arr [].
Proof. unfold get. now rewrite nth_middle. Qed.
Lemma set_nth_app {A} (pre : list A) x y post : set_nth (length pre) y (pre ++ x :: post) = pre ++ y :: post.
Proof. induction pre as [|a pre IH]; cbn; [reflexivity|]. now rewrite IH. Qed.
Lemma put_here pre arr post i x : put (pre ++ arr :: post) (length pre) i x = pre ++ set_nth i x arr :: post.
Proof. unfold put. now rewrite nth_middle, set_nth_app. Qed.

Lemma set_at {A} (pre l : list A) y : l <> [] -> set_nth (length pre) y (pre ++ l) = pre ++ y :: tl l.
Proof. destruct l as [|x l]; [congruence|]. intros _. apply set_nth_app. Qed.

Lemma pair_loop_ok : forall f pre post todo done mid junk,
  length todo <= 2 * f -> length mid = length done ->
  exists rest, pair_loop H f (pre ++ (done ++ mid ++ todo ++ junk) :: post) (length pre) (2 * length done + length todo) (2 * length done) =
               pre ++ (done ++ pairup todo ++ rest) :: post /\
               length (pairup todo ++ rest) = length (mid ++ todo ++ junk).
Proof.
  induction f as [|f IH]; intros pre post todo done mid junk Hf Hm.
  - destruct todo; [|cbn in Hf; lia]. cbn [pair_loop pairup app]. eexists. split; [reflexivity|reflexivity].
  - cbn [pair_loop]. destruct todo as [|x [|y t]].
    + cbn [length]. rewrite Nat.add_0_r, Nat.ltb_irrefl. exists (mid ++ junk). split; reflexivity.
    + cbn [length]. destruct (Nat.ltb_spec (2 * length done) (2 * length done + 1)); [|lia].
      destruct (Nat.leb_spec (2 * length done + 1) (2 * length done + 1)); [|lia].
      rewrite get_here, put_here.
      assert (N : nth (2 * length done) (done ++ mid ++ [x] ++ junk) [] = x).
      { rewrite app_assoc, app_nth2 by (rewrite app_length; lia). rewrite app_length, Hm. replace (2 * length done - (length done + length done)) with 0 by lia. reflexivity. }
      rewrite N. replace (2 * length done / 2) with (length done) by (rewrite Nat.mul_comm, Nat.div_mul; lia).
      rewrite (set_at done) by (destruct mid; discriminate).
      exists (tl (mid ++ [x] ++ junk)). split.
      * destruct f; cbn [pair_loop]; [reflexivity|]. destruct (Nat.ltb_spec (2 * length done + 2) (2 * length done + 1)); [lia|]. reflexivity.
      * cbn [pairup]. destruct mid; reflexivity.
    + cbn [length] in *. destruct (Nat.ltb_spec (2 * length done) (2 * length done + S (S (length t)))); [|lia].
      destruct (Nat.leb_spec (2 * length done + S (S (length t))) (2 * length done + 1)); [lia|].
      rewrite !get_here, put_here.
      assert (N : forall i, nth (2 * length done + i) (done ++ mid ++ (x :: y :: t) ++ junk) [] = nth i ((x :: y :: t) ++ junk) []).
      { intros i. rewrite app_assoc, app_nth2 by (rewrite app_length; lia). rewrite app_length, Hm. f_equal. lia. }
      pose proof (N 0) as N0. rewrite Nat.add_0_r in N0. rewrite N0, (N 1). cbn [nth app].
      replace (2 * length done / 2) with (length done) by (rewrite Nat.mul_comm, Nat.div_mul; lia).
      rewrite (set_at done) by (destruct mid; discriminate).
      set (h := H (x01 :: x ++ y)).
      destruct (IH pre post t (done ++ [h]) (tl (mid ++ [x; y])) junk) as (rest & E & L).
      * lia.
      * rewrite app_length. destruct mid as [|z mid]; cbn in *; [lia|]. rewrite app_length. cbn. lia.
      * exists rest. split.
        -- rewrite app_length in E. cbn [length] in E. rewrite <- !app_assoc in E. cbn [app] in E.
           replace (done ++ h :: tl (mid ++ x :: y :: t ++ junk)) with (done ++ h :: tl (mid ++ [x; y]) ++ t ++ junk).
           { replace (2 * (length done + 1) + length t) with (2 * length done + S (S (length t))) in E by lia.
             replace (2 * (length done + 1)) with (2 * length done + 2) in E by lia. rewrite E. cbn [pairup app]. reflexivity. }
           f_equal. f_equal. destruct mid as [|z mid]; [reflexivity|]. cbn [app tl]. now rewrite <- app_assoc.
        -- cbn [pairup app length]. rewrite L. rewrite !app_length. destruct mid as [|z mid]; cbn; [rewrite !app_length; lia|]. rewrite !app_length. cbn. lia.
Qed.

Lemma level_loop_ok : forall f pre post l junk, 0 < length l -> length l <= f ->
  exists arr h, level_loop H f (pre ++ (l ++ junk) :: post) (length pre) (length l) = (pre ++ arr :: post, Ok h) /\ merkle H l h.
Proof.
  induction f as [|f IH]; intros pre post l junk Hl Hf; [lia|]. cbn [level_loop].
  destruct (Nat.ltb_spec 1 (length l)) as [L|L].
  - destruct (pair_loop_ok (length l) pre post l [] [] junk ltac:(lia) eq_refl) as (rest & E & _).
    cbn [app length] in E. rewrite Nat.mul_0_r, Nat.add_0_l in E. rewrite E. rewrite <- pairup_length.
    destruct (IH pre post (pairup l) rest) as (arr & h & E' & M).
    + rewrite pairup_length. destruct (Nat.eqb_spec (length l mod 2) 0); [|lia]. apply Nat.div_str_pos. lia.
    + rewrite pairup_length. pose proof (Nat.div_mod (length l) 2 ltac:(lia)). destruct (Nat.eqb_spec (length l mod 2) 0); lia.
    + exists arr, h. split; [exact E'|]. exact (merkle_pairup _ _ M l eq_refl).
  - destruct l as [|x [|y l]]; cbn in Hl, L; try lia. cbn [length Nat.eqb]. exists ([x] ++ junk), x. rewrite get_here. cbn. split; [reflexivity|constructor].
Qed.

Lemma leaves_hash m a : nth a m [] <> [] ->
  exists arr h, leaves_tree_hash H m a = (m ++ [arr], Ok h) /\ merkle H (nth a m []) h.
Proof.
  intros Hn. unfold leaves_tree_hash.
  destruct (level_loop_ok (S (length (nth a m []))) m [] (nth a m []) []) as (arr & h & E & M).
  - destruct (nth a m []); [congruence|cbn; lia].
  - lia.
  - rewrite app_nil_r in E. eauto.
Qed.

Lemma read_leaves_nonempty : forall rs lvl l, read_leaves H rs lvl = Ok l -> l <> [].
Proof.
  induction rs as [|(d, e) rs IH]; intros lvl l E; cbn [read_leaves] in E.
  - injection E as <-. cbn [length Nat.eqb andb]. destruct lvl; [discriminate|discriminate].
  - destruct e as [e|].
    + destruct e; try discriminate. injection E as <-. destruct ((length d =? 0) && negb (length lvl =? 0))%nat%bool eqn:C.
      * intros ->. rewrite andb_false_r in C. discriminate.
      * intros N. apply app_eq_nil in N. destruct N. discriminate.
    + destruct ((length d =? 0) && negb (length lvl =? 0))%nat%bool eqn:C.
      * injection E as <-. intros ->. rewrite andb_false_r in C. discriminate.
      * eapply IH, E.
Qed.

Lemma tree_hash_leaves rs l : read_leaves H rs [] = Ok l -> exists h, tree_hash H rs = Ok h /\ merkle H l h.
Proof.
  intros E. unfold tree_hash. rewrite E. cbn [bind].
  destruct (level_loop_ok (S (length l)) [] [] l []) as (arr & h & E' & M).
  - pose proof (read_leaves_nonempty _ _ _ E). destruct l; [congruence|cbn; lia].
  - lia.
  - rewrite app_nil_r in E'. cbn [app length] in E'. rewrite E'. exists h. split; [reflexivity|exact M].
Qed.

Lemma stream_and_leaves rs : 
  (forall l, tree_leaves H rs = Ok l -> forall m a, nth a m [] = l -> snd (leaves_tree_hash H m a) = tree_hash H rs) /\
  (forall e, tree_leaves H rs = Err e <-> tree_hash H rs = Err e) /\
  ((exists l, tree_leaves H rs = Ok l) <-> exists h, tree_hash H rs = Ok h).
Proof.
  unfold tree_leaves. destruct (read_leaves H rs []) as [l|e|] eqn:E.
  - destruct (tree_hash_leaves rs l E) as (h & E1 & M). rewrite E1. split; [|split; [|split; eauto]].
    + intros l' [= <-] m a Hm. destruct (leaves_hash m a) as (arr & h' & E2 & M').
      * rewrite Hm. eapply read_leaves_nonempty, E.
      * rewrite E2. cbn. rewrite Hm in M'. f_equal. eapply merkle_unique; eauto.
    + intros e. split; discriminate.
  - unfold tree_hash. rewrite E. cbn. split; [discriminate|]. split; [intros e'; split; congruence|]. split; intros [x Hx]; discriminate.
  - exfalso. revert E. generalize (@nil bytes). induction rs as [|(d, e) rs IH]; intros lvl; cbn [read_leaves]; [discriminate|].
    destruct e as [e|]; [destruct e; discriminate|]. destruct (_ && _)%bool; [discriminate|]. apply IH.
Qed.

(** Blocks read by a filling reader. *)
Lemma filling_leaves rs : filling rs -> forall lvl,
  (delivered_by rs = [] -> lvl <> [] -> read_leaves H rs lvl = Ok lvl) /\
  (delivered_by rs <> [] \/ lvl = [] -> exists bs, blocks (delivered_by rs) bs /\ read_leaves H rs lvl = Ok (lvl ++ map (fun b => H (x00 :: b)) bs)).
Proof.
  induction 1 as [|d e Hd He|d Hd|d rs Hd Hf IH]; intros lvl.
  - unfold delivered_by. cbn [map concat read_leaves length Nat.eqb andb]. split.
    + intros _ Hl. destruct lvl; [congruence|reflexivity].
    + intros [C| ->]; [congruence|]. exists [[]]. split; [constructor; cbn; lia|reflexivity].
  - unfold delivered_by. cbn [map concat fst]. rewrite app_nil_r. split.
    + intros ->. cbn in Hd. lia.
    + intros _. exists [d]. split; [constructor; lia|]. cbn [read_leaves map].
      destruct (Nat.eqb_spec (length d) 0) as [C|C]; [lia|]. cbn [andb].
      destruct He as [-> | ->]; [|reflexivity]. destruct (length (lvl ++ [H (x00 :: d)]) =? 0)%nat eqn:Z; [|reflexivity].
      rewrite app_length in Z. apply Nat.eqb_eq in Z. cbn in Z. lia.
  - unfold delivered_by. cbn [map concat fst]. rewrite app_nil_r. cbn [read_leaves]. split.
    + intros -> Hl. cbn [length Nat.eqb andb]. destruct lvl; [congruence|reflexivity].
    + intros Hc. exists [d]. split; [constructor; lia|]. cbn [map].
      destruct (Nat.eqb_spec (length d) 0) as [C|C]; cbn [andb]; [|reflexivity].
      destruct d; [|discriminate]. destruct Hc as [Hc| ->]; [congruence|reflexivity].
  - unfold delivered_by in *. cbn [map concat fst read_leaves]. rewrite Hd. cbn [Nat.eqb andb]. split.
    + intros E. apply app_eq_nil in E. destruct E as [-> _]. cbn in Hd. discriminate.
    + intros _. destruct (IH (lvl ++ [H (x00 :: d)])) as [I1 I2].
      assert (Hn : lvl ++ [H (x00 :: d)] <> []) by (intros E; apply app_eq_nil in E; destruct E; discriminate).
      destruct (concat (map fst rs)) as [|c s] eqn:Es.
      * exists [d]. rewrite app_nil_r. split; [constructor; lia|]. now rewrite I1.
      * destruct I2 as (bs & Hb & E); [left; discriminate|]. exists (d :: bs). split; [constructor; auto; discriminate|].
        rewrite E, <- app_assoc. reflexivity.
Qed.

Lemma filling_thex rs : filling rs -> exists h, tree_hash H rs = Ok h /\ thex H (delivered_by rs) h.
Proof.
  intros F. destruct (filling_leaves rs F []) as [_ K]. destruct K as (bs & Hb & E); [now right|].
  destruct (tree_hash_leaves rs _ E) as (h & E1 & M). exists h. split; [exact E1|]. exists bs. split; assumption.
Qed.

Lemma blocks_unique s l : blocks s l -> forall l', blocks s l' -> l = l'.
Proof.
  induction 1 as [d Hd|d s bs Hd Hs Hb IH]; intros l' B.
  - inversion B as [d' Hd' E|d' s' bs' Hd' Hs' Hb' E]; subst; [reflexivity|]. rewrite app_length in Hd. destruct s'; [congruence|cbn in Hd; lia].
  - inversion B as [d' Hd' E|d' s' bs' Hd' Hs' Hb' E].
    + subst d'. rewrite app_length in Hd'. destruct s; [congruence|cbn in Hd'; lia].
    + apply app_inv_len in E; [|lia]. destruct E as [-> ->]. f_equal. now apply IH.
Qed.

Lemma thex_unique s h h' : thex H s h -> thex H s h' -> h = h'.
Proof.
  intros (bs & B & M) (bs' & B' & M'). rewrite (blocks_unique _ _ B _ B') in M. eapply merkle_unique; eauto.
Qed.
End Tree.

(** ** Key prints *)
Section KeyPrint.
Variable sha256 : bytes -> bytes.

Lemma keyprint_text b : keyprint_bytes sha256 b = B "SHA256/" ++ b32_encode (sha256 b).
Proof.
  unfold keyprint_bytes. rewrite firstn_app, firstn_all, Nat.sub_diag, app_nil_r. reflexivity.
Qed.

Lemma keyprint_form b : length (sha256 b) = 32 ->
  exists t vs, keyprint_bytes sha256 b = B "SHA256/" ++ t /\ length t = 52 /\ Forall2 symbol t vs.
Proof.
  intros Hl. exists (b32_encode (sha256 b)). rewrite keyprint_text. destruct (base32_text (sha256 b)) as (k & _ & (vs & Hs & _) & L).
  exists vs. split; [reflexivity|]. split; [now rewrite L, Hl|exact Hs].
Qed.

Lemma keyprint_equal a b : keyprint_bytes sha256 a = keyprint_bytes sha256 b <-> sha256 a = sha256 b.
Proof.
  rewrite !keyprint_text. split; [|congruence]. intros E. apply app_inv_head in E.
  pose proof (base32_roundtrip (sha256 a)) as A. rewrite E, base32_roundtrip in A. congruence.
Qed.

Lemma verify_accepts certs kp :
  fst (verify_keyprint sha256 certs kp) = map (keyprint_bytes sha256) certs /\
  (snd (verify_keyprint sha256 certs kp) = true <-> exists c, In c certs /\ kp = keyprint_bytes sha256 c).
Proof.
  unfold verify_keyprint, get_keyprints. cbn. split; [reflexivity|]. rewrite existsb_exists. split.
  - intros (k & Hk & E). apply in_map_iff in Hk. destruct Hk as (c & <- & Hc). exists c. split; [exact Hc|].
    symmetry. now apply bytes_eqb_true.
  - intros (c & Hc & ->). exists (keyprint_bytes sha256 c). split; [now apply in_map|].
    now apply bytes_eqb_true.
Qed.

Variable pem : bytes -> option (bytes * bytes * bytes).

Lemma pem_loop_ok data l : pem_blocks pem data l -> exists f0, forall f kps, f0 <= f ->
  pem_loop sha256 pem f data kps = Some (kps ++ map (keyprint_bytes sha256) (certificates l)).
Proof.
  induction 1 as [data E|data typ b rest l E Hb (f0 & IH)].
  - exists 1. intros f kps Hf. destruct f; [lia|]. cbn [pem_loop]. rewrite E. cbn. now rewrite app_nil_r.
  - exists (S f0). intros f kps Hf. destruct f; [lia|]. cbn [pem_loop]. rewrite E. unfold certificates. cbn [filter fst].
    destruct (bytes_eqb typ (B "CERTIFICATE")); cbn [map snd]; rewrite IH by lia.
    + now rewrite <- app_assoc.
    + reflexivity.
Qed.

Lemma keyprint_file_ok data l : pem_blocks pem data l -> exists f0, forall f, f0 <= f ->
  keyprint_file sha256 pem f data =
  Some (match certificates l with [] => Err err_pem | cs => Ok (map (keyprint_bytes sha256) cs) end).
Proof.
  intros Hb. destruct (pem_loop_ok data l Hb) as (f0 & K). exists f0. intros f Hf. unfold keyprint_file. rewrite K by exact Hf. cbn [app].
  now destruct (certificates l).
Qed.
End KeyPrint.

Lemma must_parse_exact s :
  (forall h, must_parse_base32 s = Ok h <-> length h = 24 /\
   exists t tail r, unbroken s = t ++ tail /\ length t = 39 /\ ignored_tail tail /\ length r = 3 /\ spells t (flat_map bits8 h ++ r)) /\
  ((forall h, must_parse_base32 s <> Ok h) <-> must_parse_base32 s = Panic).
Proof.
  unfold must_parse_base32. change hash_size with 24. destruct (hash_from_base32 (repeat x00 24) s) as [x h'] eqn:E. split.
  - intros h. rewrite <- (from_base32_ok (repeat x00 24) s h eq_refl), E.
    destruct x as [[]|e|]; cbn; split; congruence.
  - destruct x as [[]|e|]; split; intros K; try reflexivity; try discriminate; now destruct (K h').
Qed.

Lemma sid_text s :
  (forall id, sid_unmarshal s = Ok id <-> length s = 4 /\ id = s) /\
  (forall id, sid_from_string s = Ok id <-> length s = 4 /\ id = s) /\
  (sid_from_string s = Panic <-> length s <> 4) /\ sid_unmarshal s <> Panic.
Proof.
  unfold sid_from_string, sid_unmarshal. destruct (Nat.eqb_spec (length s) 4) as [E|E]; repeat split; intros; try discriminate; try congruence; try tauto.
  all: try (destruct H as [_ ->]; reflexivity); try tauto; intuition congruence.
Qed.

Lemma keyprint_each sha256 certs i :
  length (keyprint_certificate sha256 certs) = length certs /\
  forall c, nth_error certs i = Some c -> exists kp, nth_error (keyprint_certificate sha256 certs) i = Some kp /\
    forall b, kp = keyprint_bytes sha256 b <-> sha256 b = sha256 c.
Proof.
  unfold keyprint_certificate. split; [apply map_length|]. intros c E. exists (keyprint_bytes sha256 c).
  split; [now apply map_nth_error|]. intros b. rewrite keyprint_equal. split; congruence.
Qed.
