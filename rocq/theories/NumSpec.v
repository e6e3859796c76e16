(** The number parsers against the specification of SpecText.v. *)
From Verif Require Import Base BaseFacts Num NumFacts SpecText.

Lemma digits_acc_fold d a v :
  digits_acc a d = Some v <->
  Forall digit_char d /\ v = fold_left (fun a c => 10 * a + (b2n c - 48))%N d a.
Proof.
  revert a. induction d as [|c d IH]; intros a; cbn [digits_acc fold_left].
  - split; [intros [= <-]; split; [constructor|reflexivity]|intros [_ ->]; reflexivity].
  - destruct (is_digit c) eqn:E.
    + rewrite IH. destruct (digit_val_range c E) as [-> Hr].
      replace (a * 10 + (b2n c - 48))%N with (10 * a + (b2n c - 48))%N by lia.
      split; intros [H ->]; (split; [|reflexivity]).
      * constructor; [exact Hr|exact H].
      * now inversion H.
    + split; [discriminate|]. intros [H _]. inversion H as [|x l Hx Hl]; subst.
      apply is_digit_iff in Hx. congruence.
Qed.

Lemma decimal_iff d v : decimal d v <-> d <> [] /\ digits_acc 0 d = Some v.
Proof. unfold decimal, dec_value. rewrite digits_acc_fold. tauto. Qed.

Lemma signed_decimal_iff s z : signed_decimal s z <-> denotes_int s z.
Proof.
  split.
  - intros (d & v & H & Hs). apply decimal_iff in H as [H1 H2].
    destruct Hs as [[-> ->]|[[-> ->]|[-> ->]]]; constructor; assumption.
  - destruct 1 as [d n Hn Hd|d n Hn Hd|d n Hn Hd]; exists d, n; (split; [now apply decimal_iff|]); tauto.
Qed.

Lemma parse_uint_exact s v :
  parse_uint_trim s = Ok v <-> exists d, padded s d /\ decimal d v /\ (v < 2 ^ 64)%N.
Proof.
  rewrite parse_uint_trim_spec. split.
  - intros (i & j & d & -> & Hn & Hd & Hv). exists d. split; [now exists i, j|].
    split; [now apply decimal_iff|exact Hv].
  - intros (d & (i & j & ->) & Hd & Hv). apply decimal_iff in Hd as [H1 H2].
    exists i, j, d. repeat split; assumption.
Qed.

Lemma parse_uint_rejects s :
  (~ exists d v, padded s d /\ decimal d v /\ (v < 2 ^ 64)%N) <-> exists e, parse_uint_trim s = Err e.
Proof.
  split.
  - intros H. destruct (parse_uint_trim s) as [v|e|] eqn:E; [|eauto|now apply parse_uint_trim_total in E].
    exfalso. apply H. apply parse_uint_exact in E as (d & Hd). now exists d, v.
  - intros [e He] (d & v & Hd). assert (parse_uint_trim s = Ok v) by (apply parse_uint_exact; now exists d). congruence.
Qed.

Lemma atoi_exact s z :
  atoi_trim s = Ok z <-> exists d, padded s d /\ signed_decimal d z /\ (- 2 ^ 63 <= z < 2 ^ 63)%Z.
Proof.
  rewrite atoi_trim_spec. split.
  - intros (i & j & d & -> & Hd & Hv). exists d. split; [now exists i, j|].
    split; [now apply signed_decimal_iff|exact Hv].
  - intros (d & (i & j & ->) & Hd & Hv). apply signed_decimal_iff in Hd.
    exists i, j, d. repeat split; [exact Hd|apply Hv..].
Qed.

Lemma atoi_rejects s :
  (~ exists d z, padded s d /\ signed_decimal d z /\ (- 2 ^ 63 <= z < 2 ^ 63)%Z) <-> exists e, atoi_trim s = Err e.
Proof.
  split.
  - intros H. destruct (atoi_trim s) as [v|e|] eqn:E; [|eauto|now apply atoi_trim_total in E].
    exfalso. apply H. apply atoi_exact in E as (d & Hd). now exists d, v.
  - intros [e He] (d & v & Hd). assert (atoi_trim s = Ok v) by (apply atoi_exact; now exists d). congruence.
Qed.
