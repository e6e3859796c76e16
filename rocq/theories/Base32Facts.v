(** Lemmas about base32. *)
From Verif Require Import Base BaseFacts Base32 SpecHash.

(** ** Finite checks *)
Definition vals32 : list N := map N.of_nat (seq 0 32).
Lemma vals32_in v : (v < 32)%N -> In v vals32.
Proof.
  intros H. unfold vals32. apply in_map_iff. exists (N.to_nat v). split; [apply N2Nat.id|]. apply in_seq. lia.
Qed.
Definition bits_eqb (a b : list bool) : bool := if list_eq_dec bool_dec a b then true else false.
Lemma bits_eqb_true a b : bits_eqb a b = true -> a = b.
Proof. unfold bits_eqb. destruct (list_eq_dec bool_dec a b); [auto|discriminate]. Qed.

Lemma check1 (P : byte -> bool) : forallb P all_bytes = true -> forall a, P a = true.
Proof. intros H a. rewrite forallb_forall in H. apply H, all_bytes_in. Qed.
Lemma check2 (P : byte -> byte -> bool) : forallb (fun a => forallb (P a) all_bytes) all_bytes = true -> forall a b, P a b = true.
Proof. intros H a b. rewrite forallb_forall in H. specialize (H a (all_bytes_in a)). rewrite forallb_forall in H. apply H, all_bytes_in. Qed.
Lemma checkv2 (P : N -> N -> bool) : forallb (fun a => forallb (P a) vals32) vals32 = true -> forall a b, (a < 32)%N -> (b < 32)%N -> P a b = true.
Proof.
  intros H a b Ha Hb. rewrite forallb_forall in H. specialize (H a (vals32_in a Ha)). rewrite forallb_forall in H. apply H, vals32_in, Hb.
Qed.
Lemma checkv3 (P : N -> N -> N -> bool) : forallb (fun a => forallb (fun b => forallb (P a b) vals32) vals32) vals32 = true ->
  forall a b c, (a < 32)%N -> (b < 32)%N -> (c < 32)%N -> P a b c = true.
Proof.
  intros H a b c Ha Hb Hc. rewrite forallb_forall in H. specialize (H a (vals32_in a Ha)).
  rewrite forallb_forall in H. specialize (H b (vals32_in b Hb)). rewrite forallb_forall in H. apply H, vals32_in, Hc.
Qed.

(** ** Symbols *)
Definition symbol_ok (v : N) : bool :=
  beq (sym v) (if (v <? 26)%N then n2b (65 + v) else n2b (24 + v)) &&
  match sym_value (sym v) with Some w => (w =? v)%N | None => false end &&
  negb (beq (sym v) x0a) && negb (beq (sym v) x0d) && negb (beq (sym v) xff).
Lemma symbols_ok : forallb symbol_ok vals32 = true. Proof. vm_compute. reflexivity. Qed.
Lemma sym_facts v : (v < 32)%N -> symbol (sym v) v /\ sym_value (sym v) = Some v /\ sym v <> x0a /\ sym v <> x0d /\ sym v <> xff.
Proof.
  intros Hv. pose proof symbols_ok as H. rewrite forallb_forall in H. specialize (H v (vals32_in v Hv)).
  unfold symbol_ok in H. rewrite !andb_true_iff, !negb_true_iff, !beq_false in H. destruct H as ((((H1 & H2) & H3) & H4) & H5).
  apply beq_true in H1. repeat split; auto.
  - rewrite H1. destruct (N.ltb_spec v 26); constructor; lia.
  - destruct (sym_value (sym v)) as [w|]; [|discriminate]. apply N.eqb_eq in H2. now subst.
Qed.

Definition value_ok (c : byte) : bool :=
  match sym_value c with Some v => (v <? 32)%N && beq (sym v) c | None => true end.
Lemma values_ok : forallb value_ok all_bytes = true. Proof. vm_compute. reflexivity. Qed.
Lemma sym_value_some c v : sym_value c = Some v -> (v < 32)%N /\ c = sym v.
Proof.
  intros E. pose proof (check1 _ values_ok c) as H. unfold value_ok in H. rewrite E in H.
  apply andb_true_iff in H. destruct H as [H1 H2]. apply N.ltb_lt in H1. apply beq_true in H2. auto.
Qed.

Lemma symbol_sym c v : symbol c v <-> (v < 32)%N /\ c = sym v.
Proof.
  split.
  - intros H. assert (Hv : (v < 32)%N) by (destruct H; lia). split; [exact Hv|].
    destruct (sym_facts v Hv) as [Hs _]. destruct H, Hs; try reflexivity; lia.
  - intros [Hv ->]. now apply sym_facts.
Qed.
Lemma symbol_value c v : symbol c v <-> sym_value c = Some v.
Proof.
  rewrite symbol_sym. split; [intros [Hv ->]; now apply sym_facts|apply sym_value_some].
Qed.
Lemma no_symbol c : sym_value c = None <-> ~ exists v, symbol c v.
Proof.
  split.
  - intros E [v Hv]. apply symbol_value in Hv. congruence.
  - intros H. destruct (sym_value c) as [v|] eqn:E; [|reflexivity]. exfalso. apply H. exists v. now apply symbol_value.
Qed.

Lemma symbols_map vs : Forall (fun v => v < 32)%N vs -> Forall2 symbol (map sym vs) vs.
Proof. induction 1; cbn; constructor; auto. now apply sym_facts. Qed.
Lemma symbols_map_inv t vs : Forall2 symbol t vs -> t = map sym vs /\ Forall (fun v => v < 32)%N vs.
Proof.
  induction 1 as [|c v t vs H1 _ [IH1 IH2]]; [auto|]. apply symbol_sym in H1. destruct H1 as [H1 ->]. cbn. split; [congruence|auto].
Qed.

(** ** Encoding one group *)
Lemma group_bits a b c d e :
  map bits5 (group_values (b2n a) (b2n b) (b2n c) (b2n d) (b2n e)) =
  [firstn 5 (bits8 a); skipn 5 (bits8 a) ++ firstn 2 (bits8 b); firstn 5 (skipn 2 (bits8 b));
   skipn 7 (bits8 b) ++ firstn 4 (bits8 c); skipn 4 (bits8 c) ++ firstn 1 (bits8 d); firstn 5 (skipn 1 (bits8 d));
   skipn 6 (bits8 d) ++ firstn 3 (bits8 e); skipn 3 (bits8 e)].
Proof.
  unfold group_values. cbn [map].
  repeat match goal with |- (?x :: _) = (?y :: _) => apply (f_equal2 (@cons (list bool))) end; [..|reflexivity]; apply bits_eqb_true.
  - revert a. apply check1. vm_compute. reflexivity.
  - revert a b. apply check2. vm_compute. reflexivity.
  - revert b. apply check1. vm_compute. reflexivity.
  - revert b c. apply check2. vm_compute. reflexivity.
  - revert c d. apply check2. vm_compute. reflexivity.
  - revert d. apply check1. vm_compute. reflexivity.
  - revert d e. apply check2. vm_compute. reflexivity.
  - revert e. apply check1. vm_compute. reflexivity.
Qed.

Lemma group_small a b c d e : Forall (fun v => v < 32)%N (group_values (b2n a) (b2n b) (b2n c) (b2n d) (b2n e)).
Proof.
  unfold group_values. repeat constructor; apply N.ltb_lt.
  - revert a. apply check1. vm_compute. reflexivity.
  - revert a b. apply check2. vm_compute. reflexivity.
  - revert b. apply check1. vm_compute. reflexivity.
  - revert b c. apply check2. vm_compute. reflexivity.
  - revert c d. apply check2. vm_compute. reflexivity.
  - revert d. apply check1. vm_compute. reflexivity.
  - revert d e. apply check2. vm_compute. reflexivity.
  - revert e. apply check1. vm_compute. reflexivity.
Qed.

Lemma bits8_split b : exists b7 b6 b5 b4 b3 b2 b1 b0, bits8 b = [b7; b6; b5; b4; b3; b2; b1; b0].
Proof. unfold bits8. cbn [map]. eauto 10. Qed.
Lemma bits8_length b : length (bits8 b) = 8. Proof. reflexivity. Qed.
Lemma bits5_length v : length (bits5 v) = 5. Proof. reflexivity. Qed.

Lemma flat_map_bits8_length l : length (flat_map bits8 l) = 8 * length l.
Proof. induction l as [|a l IH]; [reflexivity|]. cbn [flat_map]. rewrite app_length, IH, bits8_length. cbn [length]. lia. Qed.
Lemma flat_map_bits5_length l : length (flat_map bits5 l) = 5 * length l.
Proof. induction l as [|a l IH]; [reflexivity|]. cbn [flat_map]. rewrite app_length, IH, bits5_length. cbn [length]. lia. Qed.

Lemma bits8_inj a b : bits8 a = bits8 b -> a = b.
Proof.
  intros H. assert (K : (if bits_eqb (bits8 a) (bits8 b) then beq a b else true) = true).
  { clear H. revert a b. apply check2. vm_compute. reflexivity. }
  rewrite H in K. unfold bits_eqb in K. destruct (list_eq_dec bool_dec (bits8 b) (bits8 b)); [|congruence]. now apply beq_true.
Qed.
Lemma app_inv_len {A} : forall (a c b d : list A), length a = length c -> a ++ b = c ++ d -> a = c /\ b = d.
Proof.
  induction a as [|x a IH]; intros [|y c] b d Hl; cbn in *; try discriminate; [auto|].
  intros [= -> H]. apply IH in H; [|lia]. destruct H. split; congruence.
Qed.
Lemma bits_bytes_inj : forall a b, flat_map bits8 a = flat_map bits8 b -> a = b.
Proof.
  induction a as [|x a IH]; intros [|y b] H; cbn [flat_map] in H; try reflexivity.
  - exfalso. apply (f_equal (@length bool)) in H. rewrite app_length, bits8_length in H. discriminate H.
  - exfalso. apply (f_equal (@length bool)) in H. rewrite app_length, bits8_length in H. discriminate H.
  - apply app_inv_len in H; [|reflexivity]. destruct H as [H1 H2]. apply bits8_inj in H1. apply IH in H2. congruence.
Qed.

(** ** Decoding one group *)
Definition pack_bits (n : nat) : nat := match n with 2 => 8 | 4 => 16 | 5 => 24 | 7 => 32 | 8 => 40 | _ => 0 end.

Lemma pack_b0 v0 v1 : (v0 < 32)%N -> (v1 < 32)%N -> bits8 (n2b (N.lor (shl v0 3) (N.shiftr v1 2))) = bits5 v0 ++ firstn 3 (bits5 v1).
Proof. intros H0 H1. apply bits_eqb_true. revert v0 v1 H0 H1. apply checkv2. vm_compute. reflexivity. Qed.
Lemma pack_b1 v1 v2 v3 : (v1 < 32)%N -> (v2 < 32)%N -> (v3 < 32)%N ->
  bits8 (n2b (N.lor (N.lor (shl v1 6) (shl v2 1)) (N.shiftr v3 4))) = skipn 3 (bits5 v1) ++ bits5 v2 ++ firstn 1 (bits5 v3).
Proof. intros H0 H1 H2. apply bits_eqb_true. revert v1 v2 v3 H0 H1 H2. apply checkv3. vm_compute. reflexivity. Qed.
Lemma pack_b2 v3 v4 : (v3 < 32)%N -> (v4 < 32)%N -> bits8 (n2b (N.lor (shl v3 4) (N.shiftr v4 1))) = skipn 1 (bits5 v3) ++ firstn 4 (bits5 v4).
Proof. intros H0 H1. apply bits_eqb_true. revert v3 v4 H0 H1. apply checkv2. vm_compute. reflexivity. Qed.
Lemma pack_b3 v4 v5 v6 : (v4 < 32)%N -> (v5 < 32)%N -> (v6 < 32)%N ->
  bits8 (n2b (N.lor (N.lor (shl v4 7) (shl v5 2)) (N.shiftr v6 3))) = skipn 4 (bits5 v4) ++ bits5 v5 ++ firstn 2 (bits5 v6).
Proof. intros H0 H1 H2. apply bits_eqb_true. revert v4 v5 v6 H0 H1 H2. apply checkv3. vm_compute. reflexivity. Qed.
Lemma pack_b4 v6 v7 : (v6 < 32)%N -> (v7 < 32)%N -> bits8 (n2b (N.lor (shl v6 5) v7)) = skipn 2 (bits5 v6) ++ bits5 v7.
Proof. intros H0 H1. apply bits_eqb_true. revert v6 v7 H0 H1. apply checkv2. vm_compute. reflexivity. Qed.

Lemma pack_spec vs : length vs <= 8 -> Forall (fun v => v < 32)%N vs ->
  flat_map bits8 (pack vs) = firstn (pack_bits (length vs)) (flat_map bits5 vs).
Proof.
  intros Hl Hv.
  destruct vs as [|v0 [|v1 [|v2 [|v3 [|v4 [|v5 [|v6 [|v7 [|v8 vs]]]]]]]]]; cbn in Hl; try lia; try reflexivity;
  repeat match goal with K : Forall _ (_ :: _) |- _ => inversion K; subst; clear K end;
  unfold pack; cbn [length nth flat_map];
  rewrite ?(pack_b0 v0 v1), ?(pack_b1 v1 v2 v3), ?(pack_b2 v3 v4), ?(pack_b3 v4 v5 v6), ?(pack_b4 v6 v7) by assumption;
  reflexivity.
Qed.

Lemma group_nil : group_values 0 0 0 0 0 = [0;0;0;0;0;0;0;0]%N. Proof. reflexivity. Qed.

(** ** Encoding *)
Fixpoint packs (l : list N) : bytes :=
  match l with
  | a :: b :: c :: d :: e :: f :: g :: h :: t => pack [a; b; c; d; e; f; g; h] ++ packs t
  | _ => pack l
  end.
(** Only the complete groups. *)
Fixpoint fulls (l : list N) : bytes :=
  match l with
  | a :: b :: c :: d :: e :: f :: g :: h :: t => pack [a; b; c; d; e; f; g; h] ++ fulls t
  | _ => []
  end.

Fixpoint enc_values (src : bytes) : list N :=
  match src with
  | [] => []
  | [a] => firstn 2 (group_values (b2n a) 0 0 0 0)
  | [a; b] => firstn 4 (group_values (b2n a) (b2n b) 0 0 0)
  | [a; b; c] => firstn 5 (group_values (b2n a) (b2n b) (b2n c) 0 0)
  | [a; b; c; d] => firstn 7 (group_values (b2n a) (b2n b) (b2n c) (b2n d) 0)
  | a :: b :: c :: d :: e :: t => group_values (b2n a) (b2n b) (b2n c) (b2n d) (b2n e) ++ enc_values t
  end.

Lemma by_fives (P : bytes -> Prop) : P [] -> (forall a, P [a]) -> (forall a b, P [a; b]) -> (forall a b c, P [a; b; c]) ->
  (forall a b c d, P [a; b; c; d]) -> (forall a b c d e t, P t -> P (a :: b :: c :: d :: e :: t)) -> forall l, P l.
Proof.
  intros H0 H1 H2 H3 H4 H5. fix F 1. intros [|a [|b [|c [|d [|e t]]]]].
  - exact H0.
  - apply H1.
  - apply H2.
  - apply H3.
  - apply H4.
  - apply H5, F.
Qed.

Lemma encoded_len_add n : b32_encoded_len (5 + n) = 8 + b32_encoded_len n.
Proof. unfold b32_encoded_len. replace ((5 + n) * 8 + 4) with (n * 8 + 4 + 8 * 5) by lia. rewrite Nat.div_add by lia. lia. Qed.

Lemma enc_values_length src : length (enc_values src) = b32_encoded_len (length src).
Proof.
  induction src using by_fives; try reflexivity. cbn [enc_values length]. rewrite app_length, IHsrc.
  change (S (S (S (S (S (length src)))))) with (5 + length src). now rewrite encoded_len_add.
Qed.

Lemma encode_to_exact dst src : length dst = b32_encoded_len (length src) -> b32_encode_to dst src = Some (map sym (enc_values src)).
Proof.
  revert dst. induction src using by_fives; intros dst Hl; cbn [b32_encode_to enc_values length] in *.
  - destruct dst; [reflexivity|discriminate].
  - replace (length dst) with 2 by exact (eq_sym Hl). rewrite skipn_all2 by (rewrite Hl; cbn; lia). rewrite app_nil_r. reflexivity.
  - replace (length dst) with 4 by exact (eq_sym Hl). rewrite skipn_all2 by (rewrite Hl; cbn; lia). rewrite app_nil_r. reflexivity.
  - replace (length dst) with 5 by exact (eq_sym Hl). rewrite skipn_all2 by (rewrite Hl; cbn; lia). rewrite app_nil_r. reflexivity.
  - replace (length dst) with 7 by exact (eq_sym Hl). rewrite skipn_all2 by (rewrite Hl; cbn; lia). rewrite app_nil_r. reflexivity.
  - change (S (S (S (S (S (length src)))))) with (5 + length src) in Hl. rewrite encoded_len_add in Hl.
    destruct (Nat.ltb_spec (length dst) 8); [lia|]. rewrite IHsrc by (rewrite skipn_length; lia).
    now rewrite map_app.
Qed.

Lemma encode_values src : b32_encode src = map sym (enc_values src).
Proof. unfold b32_encode. rewrite encode_to_exact; [reflexivity|]. apply repeat_length. Qed.

Lemma firstn_Forall {A} (P : A -> Prop) n l : Forall P l -> Forall P (firstn n l).
Proof. intros H. rewrite <- (firstn_skipn n l) in H. now apply Forall_app in H. Qed.

Lemma enc_values_small src : Forall (fun v => v < 32)%N (enc_values src).
Proof.
  induction src using by_fives; cbn [enc_values].
  - constructor.
  - apply firstn_Forall. apply (group_small a x00 x00 x00 x00).
  - apply firstn_Forall. apply (group_small a b x00 x00 x00).
  - apply firstn_Forall. apply (group_small a b c x00 x00).
  - apply firstn_Forall. apply (group_small a b c d x00).
  - apply Forall_app. split; [apply group_small|exact IHsrc].
Qed.

Lemma flat_map_bits5 l : flat_map bits5 l = concat (map bits5 l).
Proof. apply flat_map_concat_map. Qed.

Lemma enc_values_bits src : exists k, k < 5 /\ flat_map bits5 (enc_values src) = flat_map bits8 src ++ repeat false k.
Proof.
  induction src using by_fives; cbn [enc_values].
  - exists 0. split; [lia|reflexivity].
  - exists 2. split; [lia|]. rewrite flat_map_bits5, <- firstn_map. change 0%N with (b2n x00). rewrite group_bits.
    destruct (bits8_split a) as (?&?&?&?&?&?&?&?&E). cbn [flat_map]. rewrite E. reflexivity.
  - exists 4. split; [lia|]. rewrite flat_map_bits5, <- firstn_map. change 0%N with (b2n x00). rewrite group_bits.
    destruct (bits8_split a) as (?&?&?&?&?&?&?&?&E). destruct (bits8_split b) as (?&?&?&?&?&?&?&?&E2). cbn [flat_map]. rewrite E, E2. reflexivity.
  - exists 1. split; [lia|]. rewrite flat_map_bits5, <- firstn_map. change 0%N with (b2n x00). rewrite group_bits.
    destruct (bits8_split a) as (?&?&?&?&?&?&?&?&E). destruct (bits8_split b) as (?&?&?&?&?&?&?&?&E2).
    destruct (bits8_split c) as (?&?&?&?&?&?&?&?&E3). cbn [flat_map]. rewrite E, E2, E3. reflexivity.
  - exists 3. split; [lia|]. rewrite flat_map_bits5, <- firstn_map. change 0%N with (b2n x00). rewrite group_bits.
    destruct (bits8_split a) as (?&?&?&?&?&?&?&?&E). destruct (bits8_split b) as (?&?&?&?&?&?&?&?&E2).
    destruct (bits8_split c) as (?&?&?&?&?&?&?&?&E3). destruct (bits8_split d) as (?&?&?&?&?&?&?&?&E4). cbn [flat_map]. rewrite E, E2, E3, E4. reflexivity.
  - destruct IHsrc as (k & Hk & IH). exists k. split; [exact Hk|]. rewrite flat_map_app, IH, flat_map_bits5, group_bits.
    destruct (bits8_split a) as (?&?&?&?&?&?&?&?&E). destruct (bits8_split b) as (?&?&?&?&?&?&?&?&E2).
    destruct (bits8_split c) as (?&?&?&?&?&?&?&?&E3). destruct (bits8_split d) as (?&?&?&?&?&?&?&?&E4).
    destruct (bits8_split e) as (?&?&?&?&?&?&?&?&E5). cbn [flat_map]. rewrite E, E2, E3, E4, E5. reflexivity.
Qed.

(** ** Decoding *)
Definition pad_ok (j : nat) (tail : bytes) : bool :=
  match tail with
  | [] => true
  | c :: t => beq c xff && (2 <=? j)%nat && (length t <? 8)%nat && negb (length t + j <? 7)%nat &&
              forallb (fun x => beq x xff) (firstn (7 - j) t) && negb ((j =? 3) || (j =? 6))%nat
  end.

Lemma pack_short l : length l < 8 -> packs l = pack l /\ fulls l = [].
Proof.
  intros H. destruct l as [|v0 [|v1 [|v2 [|v3 [|v4 [|v5 [|v6 [|v7 l]]]]]]]]; try (split; reflexivity). cbn in H. lia.
Qed.
Lemma pack_full g l : length g = 8 -> packs (g ++ l) = pack g ++ packs l /\ fulls (g ++ l) = pack g ++ fulls l.
Proof.
  intros H. destruct g as [|v0 [|v1 [|v2 [|v3 [|v4 [|v5 [|v6 [|v7 [|? ?]]]]]]]]]; try discriminate. split; reflexivity.
Qed.

Lemma decode_char : forall t vs, length vs < 8 ->
  exists ws tail, t = map sym ws ++ tail /\ Forall (fun v => v < 32)%N ws /\
    match tail with [] => True | c :: _ => sym_value c = None end /\
    b32_decode vs t = if pad_ok (length (vs ++ ws) mod 8) tail then (packs (vs ++ ws), None) else (fulls (vs ++ ws), Some err_corrupt).
Proof.
  induction t as [|c t IH]; intros vs Hl.
  - exists [], []. split; [reflexivity|]. split; [constructor|]. split; [exact I|]. cbn [b32_decode pad_ok]. rewrite app_nil_r.
    now destruct (pack_short vs Hl) as [-> _].
  - cbn [b32_decode].
    destruct (sym_value c) as [v|] eqn:Ev.
    + (* a symbol *)
      pose proof (sym_value_some c v Ev) as [Hv Hc]. destruct (sym_facts v Hv) as (_ & _ & _ & _ & Hff). rewrite <- Hc in Hff.
      apply beq_false in Hff. rewrite Hff. cbn [andb].
      destruct (Nat.eqb_spec (length (vs ++ [v])) 8) as [E8|E8].
      * destruct (IH []) as (ws & tail & -> & H1 & H2 & H3); [cbn; lia|].
        exists (v :: ws), tail. split; [cbn [map app]; now rewrite <- Hc|]. split; [now constructor|]. split; [exact H2|]. rewrite H3.
        destruct (pack_full (vs ++ [v]) ws E8) as [P1 P2]. rewrite <- app_assoc in P1, P2. cbn [app] in P1, P2. rewrite P1, P2.
        replace (length (vs ++ v :: ws) mod 8) with (length ([] ++ ws) mod 8).
        { destruct (pad_ok (length ([] ++ ws) mod 8) tail); reflexivity. }
        replace (vs ++ v :: ws) with ((vs ++ [v]) ++ ws) by (now rewrite <- app_assoc). rewrite (app_length (vs ++ [v])), E8. replace (8 + length ws) with (length ws + 1 * 8) by lia.
        rewrite Nat.mod_add by lia. reflexivity.
      * rewrite app_length in E8. cbn in E8. destruct (IH (vs ++ [v])) as (ws & tail & -> & H1 & H2 & H3); [rewrite app_length; cbn; lia|].
        exists (v :: ws), tail. split; [cbn [map app]; now rewrite <- Hc|]. split; [now constructor|]. split; [exact H2|]. rewrite H3.
        rewrite <- app_assoc. reflexivity.
    + exists [], (c :: t). split; [reflexivity|]. split; [constructor|]. split; [exact Ev|]. rewrite app_nil_r.
      rewrite Nat.mod_small by exact Hl. destruct (pack_short vs Hl) as [-> ->]. cbn [pad_ok].
      destruct (beq c xff && (2 <=? length vs)%nat && (length t <? 8)%nat)%bool; cbn [andb]; [|reflexivity].
      destruct (length t + length vs <? 7)%nat; cbn [negb andb]; [reflexivity|].
      destruct (forallb (fun x => beq x xff) (firstn (7 - length vs) t)); cbn [negb andb]; [|reflexivity].
      destruct ((length vs =? 3) || (length vs =? 6))%nat; reflexivity.
Qed.

Lemma decode_symbols ws : Forall (fun v => v < 32)%N ws -> b32_decode [] (map sym ws) = (packs ws, None).
Proof.
  intros Hw. destruct (decode_char (map sym ws) [] ltac:(cbn; lia)) as (ws' & tail & E & H1 & H2 & ->).
  assert (K : ws' = ws /\ tail = []).
  { clear - E Hw H1 H2. revert ws' E H1. induction Hw as [|v ws Hv _ IH]; intros ws' E H1.
    - destruct ws'; [|discriminate]. destruct tail; [auto|discriminate].
    - destruct ws' as [|v' ws']; cbn [map app] in E.
      + destruct tail as [|c tail]; [discriminate|]. injection E as <- E. rewrite (proj1 (proj2 (sym_facts v Hv))) in H2. discriminate.
      + injection E as E1 E. inversion H1 as [|? ? Hv' H1']; subst.
        destruct (IH ws' E H1') as [-> ->]. split; [|reflexivity]. f_equal.
        pose proof (proj1 (proj2 (sym_facts v Hv))) as A. pose proof (proj1 (proj2 (sym_facts v' Hv'))) as A'. rewrite E1 in A. congruence. }
  destruct K as [-> ->]. reflexivity.
Qed.

Lemma packs_enc src : packs (enc_values src) = src.
Proof.
  induction src using by_fives.
  - reflexivity.
  - apply bits_bytes_inj. cbn [enc_values]. change (packs (firstn 2 (group_values (b2n a) 0 0 0 0))) with (pack (firstn 2 (group_values (b2n a) 0 0 0 0))).
    rewrite pack_spec; [|cbn; lia|apply (enc_values_small [a])]. destruct (enc_values_bits [a]) as (k & _ & E). cbn [enc_values] in E. rewrite E.
    rewrite firstn_app, firstn_all2 by (rewrite flat_map_bits8_length; cbn; lia). rewrite flat_map_bits8_length. apply app_nil_r.
  - apply bits_bytes_inj. cbn [enc_values]. change (packs (firstn 4 (group_values (b2n a) (b2n b) 0 0 0))) with (pack (firstn 4 (group_values (b2n a) (b2n b) 0 0 0))).
    rewrite pack_spec; [|cbn; lia|apply (enc_values_small [a; b])]. destruct (enc_values_bits [a; b]) as (k & _ & E). cbn [enc_values] in E. rewrite E.
    rewrite firstn_app, firstn_all2 by (rewrite flat_map_bits8_length; cbn; lia). rewrite flat_map_bits8_length. apply app_nil_r.
  - apply bits_bytes_inj. cbn [enc_values]. change (packs (firstn 5 (group_values (b2n a) (b2n b) (b2n c) 0 0))) with (pack (firstn 5 (group_values (b2n a) (b2n b) (b2n c) 0 0))).
    rewrite pack_spec; [|cbn; lia|apply (enc_values_small [a; b; c])]. destruct (enc_values_bits [a; b; c]) as (k & _ & E). cbn [enc_values] in E. rewrite E.
    rewrite firstn_app, firstn_all2 by (rewrite flat_map_bits8_length; cbn; lia). rewrite flat_map_bits8_length. apply app_nil_r.
  - apply bits_bytes_inj. cbn [enc_values]. change (packs (firstn 7 (group_values (b2n a) (b2n b) (b2n c) (b2n d) 0))) with (pack (firstn 7 (group_values (b2n a) (b2n b) (b2n c) (b2n d) 0))).
    rewrite pack_spec; [|cbn; lia|apply (enc_values_small [a; b; c; d])]. destruct (enc_values_bits [a; b; c; d]) as (k & _ & E). cbn [enc_values] in E. rewrite E.
    rewrite firstn_app, firstn_all2 by (rewrite flat_map_bits8_length; cbn; lia). rewrite flat_map_bits8_length. apply app_nil_r.
  - cbn [enc_values]. destruct (pack_full (group_values (b2n a) (b2n b) (b2n c) (b2n d) (b2n e)) (enc_values src) eq_refl) as [-> _].
    rewrite IHsrc. change (a :: b :: c :: d :: e :: src) with ([a; b; c; d; e] ++ src). f_equal.
    apply bits_bytes_inj. rewrite pack_spec; [|cbn; lia|apply group_small].
    rewrite firstn_all2 by (rewrite flat_map_bits5_length; cbn; lia).
    rewrite flat_map_bits5, group_bits.
    destruct (bits8_split a) as (?&?&?&?&?&?&?&?&E). destruct (bits8_split b) as (?&?&?&?&?&?&?&?&E2).
    destruct (bits8_split c) as (?&?&?&?&?&?&?&?&E3). destruct (bits8_split d) as (?&?&?&?&?&?&?&?&E4).
    destruct (bits8_split e) as (?&?&?&?&?&?&?&?&E5). cbn [flat_map]. rewrite E, E2, E3, E4, E5. reflexivity.
Qed.

Lemma strip_symbols ws : Forall (fun v => v < 32)%N ws -> strip_newlines (map sym ws) = map sym ws.
Proof.
  unfold strip_newlines. induction 1 as [|v ws Hv _ IH]; [reflexivity|]. cbn [map filter]. destruct (sym_facts v Hv) as (_ & _ & H1 & H2 & _).
  apply beq_false in H1, H2. rewrite H1, H2. cbn [negb orb]. now rewrite IH.
Qed.

(** Round trip for byte strings of every length. *)
Theorem base32_roundtrip src : b32_decode_string (b32_encode src) = (src, None).
Proof.
  unfold b32_decode_string. rewrite encode_values, strip_symbols, decode_symbols, packs_enc; auto using enc_values_small.
Qed.

Theorem base32_text src : exists k, k < 5 /\ spells (b32_encode src) (flat_map bits8 src ++ repeat false k) /\
  length (b32_encode src) = b32_encoded_len (length src).
Proof.
  destruct (enc_values_bits src) as (k & Hk & E). exists k. split; [exact Hk|]. rewrite encode_values. split.
  - exists (enc_values src). split; [apply symbols_map, enc_values_small|now symmetry].
  - rewrite map_length. apply enc_values_length.
Qed.

Lemma strip_unbroken s : strip_newlines s = unbroken s.
Proof. unfold strip_newlines, unbroken. apply filter_ext. intros a. now rewrite orb_comm. Qed.

(** ** Lengths and bits of decoded texts *)
Lemma by_eights (P : list N -> Prop) : (forall l, length l < 8 -> P l) -> (forall g t, length g = 8 -> P t -> P (g ++ t)) -> forall l, P l.
Proof.
  intros H0 H1 l. remember (length l) as n eqn:E. revert l E. induction n as [n IH] using (well_founded_induction lt_wf). intros l ->.
  destruct (Nat.lt_ge_cases (length l) 8) as [Hl|Hl]; [now apply H0|].
  rewrite <- (firstn_skipn 8 l). apply H1; [apply firstn_length_le; lia|]. apply (IH (length (skipn 8 l))); [rewrite skipn_length; lia|reflexivity].
Qed.

Lemma pack_length l : length (pack l) = pack_bits (length l) / 8.
Proof.
  unfold pack. destruct (length l) as [|[|[|[|[|[|[|[|[|n]]]]]]]]]; reflexivity.
Qed.

Definition decoded (n : nat) : nat := 5 * (n / 8) + pack_bits (n mod 8) / 8.
Lemma packs_length l : length (packs l) = decoded (length l) /\ length (fulls l) = 5 * (length l / 8).
Proof.
  induction l as [l Hl|g t Hg [IH1 IH2]] using by_eights.
  - destruct (pack_short l Hl) as [-> ->]. unfold decoded. rewrite Nat.div_small, Nat.mod_small by exact Hl. rewrite pack_length. split; reflexivity.
  - destruct (pack_full g t Hg) as [-> ->]. rewrite !app_length, IH1, IH2, pack_length, Hg. unfold decoded.
    replace (8 + length t) with (length t + 1 * 8) by lia. rewrite Nat.div_add, Nat.mod_add by lia.
    change (pack_bits 8 / 8) with 5. lia.
Qed.

Lemma packs_bits l : Forall (fun v => v < 32)%N l -> exists r, flat_map bits5 l = flat_map bits8 (packs l) ++ r.
Proof.
  induction l as [l Hl|g t Hg IH] using by_eights; intros Hv.
  - destruct (pack_short l Hl) as [-> _]. rewrite pack_spec by (auto; lia). eexists. symmetry. apply firstn_skipn.
  - apply Forall_app in Hv. destruct Hv as [Hvg Hvt]. destruct (IH Hvt) as (r & E). destruct (pack_full g t Hg) as [-> _].
    exists r. rewrite !flat_map_app, E, pack_spec, Hg by (auto; lia). rewrite firstn_all2 by (rewrite flat_map_bits5_length; cbn; lia).
    now rewrite app_assoc.
Qed.
