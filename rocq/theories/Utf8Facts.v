(** UTF-8 validity characterised by Unicode scalar values. *)
From Verif Require Import Base BaseFacts Utf8.
From Coq Require Import ZifyBool ZifyNat ZifyN.
Local Ltac Zify.zify_post_hook ::= Z.div_mod_to_equations.
Local Open Scope N_scope.

Ltac bnorm := repeat match goal with
  | H : (_ && _)%bool = true |- _ => apply andb_true_iff in H as [? ?]
  end.

Lemma encode_scalar_len r :
  length (encode_scalar r) =
  if r <? 128 then 1%nat else if r <? 2048 then 2%nat else if r <? 65536 then 3%nat else 4%nat.
Proof. unfold encode_scalar. repeat destruct (_ <? _); reflexivity. Qed.

Lemma decode1_encode r s :
  is_scalar r = true -> decode1 (encode_scalar r ++ s) = Some (r, length (encode_scalar r)).
Proof.
  intros H. unfold is_scalar in H. rewrite encode_scalar_len. unfold encode_scalar, decode1.
  destruct (r <? 128) eqn:E1.
  { cbn [app]. rewrite b2n_n2b by lia. rewrite E1. reflexivity. }
  destruct (r <? 2048) eqn:E2.
  { cbn [app]. unfold ok2, rune2, is_cont. rewrite !b2n_n2b by lia.
    replace (192 + r / 64 <? 128) with false by lia.
    match goal with |- context [if ?b then Some ?x else ?y] => replace b with true by lia end.
    f_equal. f_equal. lia. }
  destruct (r <? 65536) eqn:E3.
  { cbn [app]. unfold ok2, ok3, rune3, is_cont. rewrite !b2n_n2b by lia.
    replace (224 + r / 4096 <? 128) with false by lia.
    replace ((194 <=? 224 + r / 4096) && (224 + r / 4096 <=? 223))%bool with false by lia. cbn [andb].
    match goal with |- context [if ?b then Some ?x else ?y] => replace b with true end.
    - f_equal. f_equal. lia.
    - symmetry. destruct (224 + r / 4096 =? 224) eqn:Ea, (224 + r / 4096 =? 237) eqn:Eb; lia. }
  { cbn [app]. unfold ok2, ok3, ok4, rune4, is_cont. rewrite !b2n_n2b by lia.
    replace (240 + r / 262144 <? 128) with false by lia.
    replace ((194 <=? 240 + r / 262144) && (240 + r / 262144 <=? 223))%bool with false by lia. cbn [andb].
    replace ((224 <=? 240 + r / 262144) && (240 + r / 262144 <=? 239))%bool with false by lia. cbn [andb].
    match goal with |- context [if ?b then Some ?x else ?y] => replace b with true end.
    - f_equal. f_equal. lia.
    - symmetry. destruct (240 + r / 262144 =? 240) eqn:Ea, (240 + r / 262144 =? 244) eqn:Eb; lia. }
Qed.

Lemma n2b_eq n b : n = b2n b -> n2b n = b.
Proof. intros ->. apply n2b_b2n. Qed.

Lemma decode1_sound s r n :
  decode1 s = Some (r, n) ->
  is_scalar r = true /\ s = encode_scalar r ++ skipn n s /\ n = length (encode_scalar r).
Proof.
  unfold decode1. destruct s as [|a s1]; [discriminate|].
  pose proof (b2n_lt a).
  destruct (b2n a <? 128) eqn:E1.
  { intros [= <- <-]. split; [unfold is_scalar; lia|].
    unfold encode_scalar. rewrite E1. cbn [app skipn length]. rewrite n2b_b2n. auto. }
  destruct s1 as [|b s2]; [discriminate|]. pose proof (b2n_lt b).
  destruct (ok2 a b) eqn:E2.
  { intros [= <- <-]. unfold ok2, is_cont in E2. unfold rune2.
    set (r := (b2n a - 192) * 64 + (b2n b - 128)).
    assert (128 <= r < 2048) by lia.
    split; [unfold is_scalar; lia|].
    unfold encode_scalar. replace (r <? 128) with false by lia. replace (r <? 2048) with true by lia.
    cbn [app skipn length]. split; [|reflexivity].
    f_equal; [symmetry; apply n2b_eq; lia|]. f_equal; symmetry; apply n2b_eq; lia. }
  destruct s2 as [|c s3]; [discriminate|]. pose proof (b2n_lt c).
  destruct (ok3 a b c) eqn:E3.
  { intros [= <- <-]. unfold ok3, is_cont in E3. unfold rune3.
    set (r := (b2n a - 224) * 4096 + (b2n b - 128) * 64 + (b2n c - 128)).
    assert (2048 <= r < 65536 /\ ~ (55296 <= r <= 57343)).
    { destruct (b2n a =? 224) eqn:Ea, (b2n a =? 237) eqn:Eb; lia. }
    split; [unfold is_scalar; lia|].
    unfold encode_scalar. replace (r <? 128) with false by lia. replace (r <? 2048) with false by lia.
    replace (r <? 65536) with true by lia.
    cbn [app skipn length]. split; [|reflexivity].
    f_equal; [symmetry; apply n2b_eq; lia|]. f_equal; [symmetry; apply n2b_eq; lia|].
    f_equal; symmetry; apply n2b_eq; lia. }
  destruct s3 as [|d s4]; [discriminate|]. pose proof (b2n_lt d).
  destruct (ok4 a b c d) eqn:E4; [|discriminate].
  { intros [= <- <-]. unfold ok4, is_cont in E4. unfold rune4.
    set (r := (b2n a - 240) * 262144 + (b2n b - 128) * 4096 + (b2n c - 128) * 64 + (b2n d - 128)).
    assert (65536 <= r <= 1114111).
    { destruct (b2n a =? 240) eqn:Ea, (b2n a =? 244) eqn:Eb; lia. }
    split; [unfold is_scalar; lia|].
    unfold encode_scalar. replace (r <? 128) with false by lia. replace (r <? 2048) with false by lia.
    replace (r <? 65536) with false by lia.
    cbn [app skipn length]. split; [|reflexivity].
    f_equal; [symmetry; apply n2b_eq; lia|]. f_equal; [symmetry; apply n2b_eq; lia|].
    f_equal; [symmetry; apply n2b_eq; lia|]. f_equal; symmetry; apply n2b_eq; lia. }
Qed.

Lemma utf8_valid_step s :
  s <> [] -> utf8_valid s = match decode1 s with Some (_, n) => utf8_valid (skipn n s) | None => false end.
Proof.
  intros H. destruct s as [|a s1]; [congruence|]. cbn [utf8_valid decode1].
  destruct (b2n a <? 128); [reflexivity|].
  destruct s1 as [|b s2]; [reflexivity|]. destruct (ok2 a b); [reflexivity|].
  destruct s2 as [|c s3]; [reflexivity|]. destruct (ok3 a b c); [reflexivity|].
  destruct s3 as [|d s4]; [reflexivity|]. destruct (ok4 a b c d); reflexivity.
Qed.

Lemma encode_scalar_not_nil r : encode_scalar r <> [].
Proof. unfold encode_scalar. repeat destruct (_ <? _); discriminate. Qed.

Lemma utf8_valid_encode r s : is_scalar r = true -> utf8_valid (encode_scalar r ++ s) = utf8_valid s.
Proof.
  intros H. rewrite utf8_valid_step.
  - rewrite decode1_encode by exact H. now rewrite skipn_app_exact.
  - intros E. apply app_eq_nil in E as [E _]. now apply encode_scalar_not_nil in E.
Qed.

(** The independent meaning of validity: a sequence of encoded scalar values. *)
Theorem utf8_valid_spec s :
  utf8_valid s = true <-> exists rs, Forall (fun r => is_scalar r = true) rs /\ s = flat_map encode_scalar rs.
Proof.
  split.
  - remember (length s) as n eqn:Hn. revert s Hn.
    induction n as [n IH] using lt_wf_ind. intros s Hn H.
    destruct s as [|a s1] eqn:Es; [now exists []|].
    rewrite <- Es in *. rewrite utf8_valid_step in H by (subst; discriminate).
    destruct (decode1 s) as [[r k]|] eqn:Ed; [|discriminate].
    apply decode1_sound in Ed as (Hr & Hs & Hk).
    destruct (IH (length (skipn k s))) with (s := skipn k s) as (rs & Hrs & E); auto.
    + rewrite Hn, Hs, app_length. rewrite <- Hs.
      pose proof (encode_scalar_not_nil r). destruct (encode_scalar r); [congruence|]. cbn. lia.
    + exists (r :: rs). split; [now constructor|]. cbn. congruence.
  - intros (rs & Hrs & ->). induction Hrs as [|r rs Hr Hrs IH]; cbn; [reflexivity|].
    now rewrite utf8_valid_encode.
Qed.

Lemma utf8_valid_app a b : utf8_valid a = true -> utf8_valid (a ++ b) = utf8_valid b.
Proof.
  intros H. apply utf8_valid_spec in H as (rs & Hrs & ->).
  induction Hrs as [|r rs Hr Hrs IH]; cbn; [reflexivity|].
  rewrite <- app_assoc, utf8_valid_encode by exact Hr. exact IH.
Qed.

Definition is_ascii (b : byte) : bool := b2n b <? 128.

Lemma utf8_valid_ascii s : forallb is_ascii s = true -> utf8_valid s = true.
Proof.
  induction s as [|a s IH]; cbn; [reflexivity|]. rewrite andb_true_iff. intros [Ha Hs].
  unfold is_ascii in Ha. rewrite Ha. auto.
Qed.

Lemma utf8_valid_cons_ascii a s : is_ascii a = true -> utf8_valid (a :: s) = utf8_valid s.
Proof. unfold is_ascii. cbn. now intros ->. Qed.

(** Cutting valid text at an ASCII byte gives valid parts. *)
Lemma encode_scalar_no_ascii r c :
  is_scalar r = true -> In c (encode_scalar r) -> is_ascii c = true -> encode_scalar r = [c].
Proof.
  intros Hs Hin Hc. unfold is_ascii in Hc. unfold is_scalar in Hs. unfold encode_scalar in *.
  destruct (r <? 128) eqn:E1; [destruct Hin as [->|[]]; reflexivity|].
  exfalso.
  assert (Hge : forall n, 128 <= n < 256 -> n2b n <> c).
  { intros n Hn <-. rewrite b2n_n2b in Hc by lia. lia. }
  assert (Hge' : forall n, n2b (128 + n mod 64) <> c).
  { intros n. apply Hge. lia. }
  destruct (r <? 2048) eqn:E2.
  { destruct Hin as [H|[H|[]]]; revert H; [apply Hge; lia|apply Hge']. }
  destruct (r <? 65536) eqn:E3.
  { destruct Hin as [H|[H|[H|[]]]]; revert H; [apply Hge; lia|apply Hge'|apply Hge']. }
  destruct Hin as [H|[H|[H|[H|[]]]]]; revert H; [apply Hge; lia|apply Hge'|apply Hge'|apply Hge'].
Qed.

Lemma utf8_valid_cut c a b :
  is_ascii c = true -> utf8_valid (a ++ c :: b) = true -> utf8_valid a = true /\ utf8_valid b = true.
Proof.
  intros Hc. remember (length a) as n eqn:Hn. revert a Hn.
  induction n as [n IH] using lt_wf_ind. intros a Hn H.
  destruct a as [|x a1] eqn:Ea.
  { cbn [app] in H. rewrite utf8_valid_cons_ascii in H by exact Hc. auto. }
  rewrite <- Ea in *.
  rewrite utf8_valid_step in H by (subst; discriminate).
  destruct (decode1 (a ++ c :: b)) as [[r k]|] eqn:Ed; [|discriminate].
  apply decode1_sound in Ed as (Hr & Hs & Hk).
  set (rest := skipn k (a ++ c :: b)) in *.
  assert (Hle : (k <= length a)%nat).
  { destruct (Nat.le_gt_cases k (length a)) as [|Hgt]; [assumption|]. exfalso.
    assert (Hin : In c (encode_scalar r)).
    { assert (E : nth_error (a ++ c :: b) (length a) = Some c)
        by (rewrite nth_error_app2, Nat.sub_diag by lia; reflexivity).
      rewrite Hs, nth_error_app1 in E by lia. eapply nth_error_In; exact E. }
    apply encode_scalar_no_ascii in Hin; [|assumption|assumption].
    rewrite Hin in Hk. subst a. cbn in *. lia. }
  assert (Ha : a = encode_scalar r ++ skipn k a).
  { rewrite <- (firstn_skipn k a) at 1. f_equal.
    assert (E : firstn k (a ++ c :: b) = firstn k (encode_scalar r ++ rest)) by now rewrite <- Hs.
    rewrite firstn_app in E. replace (k - length a)%nat with 0%nat in E by lia.
    cbn [firstn] in E. rewrite app_nil_r in E. rewrite E, Hk. apply firstn_app_exact. }
  assert (Hrest : rest = skipn k a ++ c :: b).
  { unfold rest. rewrite skipn_app. f_equal. replace (k - length a)%nat with 0%nat by lia. reflexivity. }
  rewrite Hrest in H.
  destruct (IH (length (skipn k a))) with (a := skipn k a) as [H1 H2]; auto.
  - rewrite skipn_length, Hn.
    assert (0 < length a)%nat by (subst a; cbn; lia).
    pose proof (encode_scalar_not_nil r). destruct (encode_scalar r); [congruence|]. cbn in Hk. lia.
  - split; [|exact H2]. rewrite Ha, utf8_valid_encode by exact Hr. exact H1.
Qed.

(** ** bytes.Map with the identity *)

Lemma encode_rune_scalar r : exists r', is_scalar r' = true /\ encode_rune r = encode_scalar r'.
Proof.
  unfold encode_rune. destruct (is_scalar r) eqn:E.
  - exists r. auto.
  - exists rune_error. auto.
Qed.

Lemma to_valid_fuel_valid f s : utf8_valid (to_valid_fuel f s) = true.
Proof.
  revert s. induction f as [|f IH]; intros s; cbn [to_valid_fuel]; [reflexivity|].
  destruct s as [|a s]; [reflexivity|].
  destruct (decode_rune (a :: s)) as [r n].
  destruct (encode_rune_scalar r) as (r' & Hr & ->).
  now rewrite utf8_valid_encode.
Qed.

Lemma to_valid_valid s : utf8_valid (to_valid s) = true.
Proof. apply to_valid_fuel_valid. Qed.

Lemma to_valid_fuel_id f s : (length s <= f)%nat -> utf8_valid s = true -> to_valid_fuel f s = s.
Proof.
  revert s. induction f as [|f IH]; intros s Hf Hv; cbn [to_valid_fuel].
  - destruct s; [reflexivity|cbn in Hf; lia].
  - destruct s as [|a s1] eqn:Es; [reflexivity|]. rewrite <- Es in *.
    rewrite utf8_valid_step in Hv by (subst; discriminate).
    unfold decode_rune. destruct (decode1 s) as [[r k]|] eqn:Ed; [|discriminate].
    apply decode1_sound in Ed as (Hr & Hs & Hk).
    unfold encode_rune. rewrite Hr. rewrite IH; [now symmetry| |exact Hv].
    rewrite skipn_length. pose proof (encode_scalar_not_nil r).
    destruct (encode_scalar r); [congruence|]. cbn in Hk. lia.
Qed.

Lemma to_valid_id s : utf8_valid s = true -> to_valid s = s.
Proof. apply to_valid_fuel_id. lia. Qed.
