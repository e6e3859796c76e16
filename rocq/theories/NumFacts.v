(** Lemmas about decimal numbers. *)
From Verif Require Import Base BaseFacts Num.
From Coq Require Import ZifyBool ZifyNat ZifyN.
Local Ltac Zify.zify_post_hook ::= Z.div_mod_to_equations.

Lemma digit_val_digit d : (d < 10)%N -> digit_val (digit d) = d.
Proof.
  intros H. unfold digit_val, digit. rewrite b2n_n2b by lia. lia.
Qed.

Lemma is_digit_digit d : (d < 10)%N -> is_digit (digit d) = true.
Proof. intros H. unfold is_digit. rewrite digit_val_digit by exact H. lia. Qed.

Lemma digit_val_range c : is_digit c = true -> (digit_val c = b2n c - 48 /\ 48 <= b2n c <= 57)%N.
Proof. unfold is_digit, digit_val. pose proof (b2n_lt c). lia. Qed.

Lemma is_digit_iff c : is_digit c = true <-> (48 <= b2n c <= 57)%N.
Proof. unfold is_digit, digit_val. pose proof (b2n_lt c). lia. Qed.

Lemma is_digit_not_sp c : is_digit c = true -> is_sp c = false.
Proof. destruct c; vm_compute; congruence. Qed.

Lemma fmt_fuel_digits f n acc :
  (n < 2 ^ N.of_nat f)%N -> f <> 0 ->
  digits_acc 0 (fmt_fuel f n acc) = digits_acc n acc.
Proof.
  revert n acc. induction f as [|f IH]; intros n acc H Hf; [congruence|].
  cbn [fmt_fuel]. assert (Hm : (n mod 10 < 10)%N) by (apply N.mod_lt; discriminate).
  destruct (n / 10 =? 0)%N eqn:E.
  - cbn [digits_acc]. rewrite is_digit_digit, digit_val_digit by exact Hm. f_equal.
    apply N.eqb_eq in E. lia.
  - apply N.eqb_neq in E. rewrite IH.
    + cbn [digits_acc]. rewrite is_digit_digit, digit_val_digit by exact Hm. f_equal. lia.
    + rewrite Nat2N.inj_succ, N.pow_succ_r' in H. lia.
    + intros ->. cbn in H. lia.
Qed.

Lemma digits_format n : digits_acc 0 (format_uint n) = Some n.
Proof.
  unfold format_uint. rewrite fmt_fuel_digits; [reflexivity| |discriminate].
  rewrite Nat2N.inj_succ, N2Nat.id.
  destruct (N.eq_dec n 0) as [->|Hn]; [reflexivity|].
  apply N.log2_spec. lia.
Qed.

Lemma fmt_fuel_forall f n acc :
  forallb is_digit acc = true -> forallb is_digit (fmt_fuel f n acc) = true.
Proof.
  revert n acc. induction f as [|f IH]; intros n acc H; cbn [fmt_fuel]; [exact H|].
  assert (Hd : forallb is_digit (digit (n mod 10) :: acc) = true).
  { cbn. rewrite is_digit_digit by (apply N.mod_lt; discriminate). exact H. }
  destruct (n / 10 =? 0)%N; [exact Hd|now apply IH].
Qed.

Lemma format_uint_forall n : forallb is_digit (format_uint n) = true.
Proof. now apply fmt_fuel_forall. Qed.

Lemma fmt_fuel_length f n acc : length acc <= length (fmt_fuel f n acc).
Proof.
  revert n acc. induction f as [|f IH]; intros n acc; cbn [fmt_fuel]; [lia|].
  destruct (n / 10 =? 0)%N; [cbn; lia|]. etransitivity; [|apply IH]. cbn. lia.
Qed.

Lemma format_uint_not_nil n : format_uint n <> [].
Proof.
  unfold format_uint. cbn [fmt_fuel].
  destruct (n / 10 =? 0)%N; [discriminate|].
  intros E. pose proof (fmt_fuel_length (N.to_nat (N.log2 n)) (n / 10) [digit (n mod 10)]) as H.
  rewrite E in H. cbn in H. lia.
Qed.

Lemma format_uint_in c n : In c (format_uint n) -> is_digit c = true.
Proof. intros H. pose proof (format_uint_forall n) as F. rewrite forallb_forall in F. auto. Qed.

Lemma format_uint_notin c n : is_digit c = false -> ~ In c (format_uint n).
Proof. intros H Hin. apply format_uint_in in Hin. congruence. Qed.

Lemma format_int_in c z : In c (format_int z) -> is_digit c = true \/ c = "-"%byte.
Proof.
  unfold format_int. destruct (z <? 0)%Z; [intros [<-|H]; [auto|]|intros H];
  left; eapply format_uint_in; eassumption.
Qed.

Lemma format_int_notin c z : is_digit c = false -> c <> "-"%byte -> ~ In c (format_int z).
Proof. intros H H2 Hin. apply format_int_in in Hin. intuition congruence. Qed.

Lemma format_int_not_nil z : format_int z <> [].
Proof. unfold format_int. destruct (z <? 0)%Z; [discriminate|apply format_uint_not_nil]. Qed.

Lemma format_uint_inj a b : format_uint a = format_uint b -> a = b.
Proof. intros H. pose proof (digits_format a). rewrite H, digits_format in H0. congruence. Qed.

(** ** digits_acc *)

Lemma digits_acc_forall n s v : digits_acc n s = Some v -> forallb is_digit s = true.
Proof.
  revert n. induction s as [|c s IH]; cbn; intros n H; [reflexivity|].
  destruct (is_digit c); [|discriminate]. cbn. eauto.
Qed.

Lemma digits_acc_mono n s v : digits_acc n s = Some v -> (n <= v)%N.
Proof.
  revert n. induction s as [|c s IH]; cbn; intros n H; [injection H; lia|].
  destruct (is_digit c); [|discriminate]. apply IH in H. lia.
Qed.

Lemma digits_acc_bound n s v : digits_acc n s = Some v -> (v < (n + 1) * 10 ^ N.of_nat (length s))%N.
Proof.
  revert n. induction s as [|c s IH]; cbn [digits_acc length]; intros n H.
  - injection H as <-. cbn. lia.
  - destruct (is_digit c) eqn:E; [|discriminate]. apply IH in H.
    apply digit_val_range in E. rewrite Nat2N.inj_succ, N.pow_succ_r'.
    eapply N.lt_le_trans; [exact H|].
    set (p := (10 ^ N.of_nat (length s))%N).
    replace ((n + 1) * (10 * p))%N with ((n * 10 + 10) * p)%N by lia.
    apply N.mul_le_mono_r. lia.
Qed.

Lemma atoi_loop_digits n s :
  (0 <= n)%Z ->
  match atoi_loop n s, digits_acc (Z.to_N n) s with
  | Ok z, Some v => z = Z.of_N v
  | Err _, None => True
  | _, _ => False
  end.
Proof.
  revert n. induction s as [|c s IH]; cbn; intros n Hn.
  - lia.
  - unfold is_digit. destruct (9 <? digit_val c)%N eqn:E1, (digit_val c <=? 9)%N eqn:E2; try lia.
    + specialize (IH (n * 10 + Z.of_N (digit_val c))%Z ltac:(lia)).
      replace (Z.to_N n * 10 + digit_val c)%N with (Z.to_N (n * 10 + Z.of_N (digit_val c))) by lia.
      exact IH.
Qed.

Lemma parse_uint_loop_spec s n v :
  (n < two64)%N ->
  (parse_uint_loop n s = Ok v <-> digits_acc n s = Some v /\ (v < two64)%N).
Proof.
  revert n. induction s as [|c s IH]; intros n Hn; cbn [parse_uint_loop digits_acc].
  - split; [intros [= <-]; auto|intros [[= <-] _]; auto].
  - unfold is_digit, digit_val. pose proof (b2n_lt c) as Hc.
    destruct ((b2n c <? 48) || (57 <? b2n c))%N%bool eqn:Ed.
    + assert (E : ((b2n c + 256 - 48) mod 256 <=? 9)%N = false) by lia.
      rewrite E. split; [discriminate|intros [[=] _]].
    + assert (E : ((b2n c + 256 - 48) mod 256 <=? 9)%N = true) by lia. rewrite E.
      assert (Ev : ((b2n c + 256 - 48) mod 256 = b2n c - 48)%N) by lia. rewrite Ev.
      destruct (cutoff <=? n)%N eqn:Ec.
      * split; [discriminate|]. intros [H Hv]. exfalso.
        apply digits_acc_mono in H. unfold cutoff, two64 in *. lia.
      * assert (Hlt : (n * 10 < two64)%N) by (unfold cutoff, two64 in *; lia).
        rewrite (N.mod_small (n * 10)) by exact Hlt.
        destruct (N.lt_ge_cases (n * 10 + (b2n c - 48)) two64) as [Hs|Hs].
        -- rewrite N.mod_small by exact Hs.
           replace ((n * 10 + (b2n c - 48) <? n * 10) || (two64 - 1 <? n * 10 + (b2n c - 48)))%N%bool
             with false by (unfold two64 in *; lia).
           apply IH. exact Hs.
        -- replace (((n * 10 + (b2n c - 48)) mod two64 <? n * 10) || (two64 - 1 <? (n * 10 + (b2n c - 48)) mod two64))%N%bool
             with true.
           2:{ symmetry. apply orb_true_iff. left. apply N.ltb_lt.
               replace ((n * 10 + (b2n c - 48)) mod two64)%N with (n * 10 + (b2n c - 48) - two64)%N.
               - unfold two64 in *. lia.
               - apply (N.mod_unique _ _ 1%N); unfold two64 in *; lia. }
           split; [discriminate|]. intros [H Hv]. exfalso.
           apply digits_acc_mono in H. unfold two64 in *. lia.
Qed.

Lemma parse_uint_loop_total s n : parse_uint_loop n s <> Panic.
Proof.
  revert n. induction s as [|c s IH]; cbn; intros n; [discriminate|].
  destruct (_ || _); [discriminate|]. destruct (_ <=? _)%N; [discriminate|].
  destruct (_ || _); [discriminate|apply IH].
Qed.

(** ** trim_space *)

Definition sps (n : nat) : bytes := repeat " "%byte n.

Lemma forallb_sp_sps a : forallb is_sp a = true -> a = sps (length a).
Proof.
  induction a as [|x a IH]; cbn; [reflexivity|]. rewrite andb_true_iff. intros [H1 H2].
  apply beq_true in H1. subst. f_equal. auto.
Qed.

Lemma sps_forallb n : forallb is_sp (sps n) = true.
Proof. induction n; cbn; auto. Qed.

Lemma sps_length n : length (sps n) = n.
Proof. apply repeat_length. Qed.

Lemma rev_sps n : rev (sps n) = sps n.
Proof.
  rewrite (forallb_sp_sps (rev (sps n))).
  - now rewrite rev_length, sps_length.
  - rewrite forallb_rev. apply sps_forallb.
Qed.

(** A string without spaces at its ends is unchanged by surrounding spaces. *)
Definition no_end_sp (s : bytes) : Prop :=
  match s with [] => False | c :: _ => is_sp c = false end /\
  match rev s with [] => False | c :: _ => is_sp c = false end.

Lemma trim_space_pad i j d : no_end_sp d -> trim_space (sps i ++ d ++ sps j) = d.
Proof.
  intros [H1 H2]. unfold trim_space.
  rewrite drop_while_app by apply sps_forallb.
  destruct d as [|c d]; [tauto|].
  assert (E : drop_while is_sp ((c :: d) ++ sps j) = (c :: d) ++ sps j) by (cbn; now rewrite H1).
  assert (E2 : match drop_while is_sp ((c :: d) ++ sps j) with
               | [] => sps i ++ (c :: d) ++ sps j | b :: l => b :: l end = (c :: d) ++ sps j)
    by (rewrite E; reflexivity).
  cbv zeta. rewrite E2.
  rewrite rev_app_distr, rev_sps, drop_while_app by apply sps_forallb.
  destruct (rev (c :: d)) as [|x r] eqn:Er; [tauto|].
  cbn [drop_while]. rewrite H2. rewrite <- Er. apply rev_involutive.
Qed.

Lemma trim_space_id d : no_end_sp d -> trim_space d = d.
Proof. intros H. rewrite <- (trim_space_pad 0 0 d H) at 2. cbn. now rewrite app_nil_r. Qed.

Lemma trim_space_cases s :
  (exists i j d, s = sps i ++ d ++ sps j /\ no_end_sp d) \/ s = sps (length s).
Proof.
  destruct (drop_while_suffix is_sp s) as (a & Hs & Ha).
  apply forallb_sp_sps in Ha.
  destruct (drop_while is_sp s) as [|c t] eqn:Ed.
  - right. rewrite app_nil_r in Hs. congruence.
  - left. pose proof (drop_while_head _ _ _ _ Ed) as Hc.
    destruct (drop_while_suffix is_sp (rev (c :: t))) as (b & Hr & Hb).
    apply forallb_sp_sps in Hb.
    assert (Hd : c :: t = rev (drop_while is_sp (rev (c :: t))) ++ sps (length b)).
    { rewrite <- (rev_involutive (c :: t)) at 1. rewrite Hr at 1.
      rewrite rev_app_distr. f_equal. rewrite Hb, rev_sps. now rewrite sps_length. }
    exists (length a), (length b), (rev (drop_while is_sp (rev (c :: t)))).
    split; [rewrite <- Hd; congruence|].
    split.
    + destruct (rev (drop_while is_sp (rev (c :: t)))) as [|x y] eqn:E.
      * cbn in Hd. destruct (length b); [discriminate|].
        cbn in Hd. injection Hd as -> _. discriminate.
      * cbn in Hd. injection Hd as -> _. exact Hc.
    + rewrite rev_involutive.
      destruct (drop_while is_sp (rev (c :: t))) as [|x y] eqn:E.
      * cbn in Hd. destruct (length b); [discriminate|].
        cbn in Hd. injection Hd as -> _. discriminate.
      * eapply drop_while_head. exact E.
Qed.

Lemma trim_space_sps n : trim_space (sps n) = sps n.
Proof.
  assert (E : drop_while is_sp (sps n) = []) by apply drop_while_forall, sps_forallb.
  unfold trim_space. rewrite E. cbv zeta. now rewrite rev_sps, E.
Qed.

Lemma no_end_sp_digits d : d <> [] -> forallb is_digit d = true -> no_end_sp d.
Proof.
  intros Hn Hd. split.
  - destruct d as [|c d]; [congruence|]. cbn in Hd. apply andb_true_iff in Hd as [Hd _].
    now apply is_digit_not_sp.
  - rewrite <- forallb_rev in Hd.
    destruct (rev d) as [|c r] eqn:E.
    + apply Hn. rewrite <- (rev_involutive d), E. reflexivity.
    + cbn in Hd. apply andb_true_iff in Hd as [Hd _]. now apply is_digit_not_sp.
Qed.

Lemma sps_S_not_digit n : forallb is_digit (sps (S n)) = false.
Proof. reflexivity. Qed.

Lemma parse_uint_trim_unfold s :
  parse_uint_trim s = match trim_space s with [] => Err (EText "syntax") | s' => parse_uint_loop 0 s' end.
Proof. destruct s; reflexivity. Qed.

Theorem parse_uint_trim_spec s v :
  parse_uint_trim s = Ok v <->
  exists i j d, s = sps i ++ d ++ sps j /\ d <> [] /\ digits_acc 0 d = Some v /\ (v < two64)%N.
Proof.
  rewrite parse_uint_trim_unfold. split.
  - intros H. destruct (trim_space_cases s) as [(i & j & d & -> & Hd)|Hs].
    + rewrite trim_space_pad in H by exact Hd.
      destruct d as [|c d]; [destruct Hd; tauto|].
      apply parse_uint_loop_spec in H as [H Hv]; [|reflexivity].
      exists i, j, (c :: d). repeat split; auto. discriminate.
    + rewrite Hs, trim_space_sps in H. destruct (length s); [discriminate|]. cbn in H. discriminate.
  - intros (i & j & d & -> & Hn & Hv & Hlt).
    rewrite trim_space_pad.
    + destruct d; [congruence|]. apply parse_uint_loop_spec; [reflexivity|]. auto.
    + apply no_end_sp_digits; [exact Hn|]. eapply digits_acc_forall. exact Hv.
Qed.

Lemma parse_uint_trim_format n : is_uint64 n -> parse_uint_trim (format_uint n) = Ok n.
Proof.
  intros H. apply parse_uint_trim_spec. exists 0, 0, (format_uint n).
  split; [symmetry; apply app_nil_r|].
  split; [apply format_uint_not_nil|]. split; [apply digits_format|exact H].
Qed.

Lemma parse_uint_trim_total s : parse_uint_trim s <> Panic.
Proof.
  rewrite parse_uint_trim_unfold. destruct (trim_space s); [discriminate|].
  apply parse_uint_loop_total.
Qed.

(** ** Signed numbers *)

(** Denotation of an optionally signed digit string: the number it denotes. *)
Inductive denotes_int : bytes -> Z -> Prop :=
| di_plain d n : d <> [] -> digits_acc 0 d = Some n -> denotes_int d (Z.of_N n)
| di_plus d n : d <> [] -> digits_acc 0 d = Some n -> denotes_int ("+"%byte :: d) (Z.of_N n)
| di_minus d n : d <> [] -> digits_acc 0 d = Some n -> denotes_int ("-"%byte :: d) (- Z.of_N n).

Lemma sign_not_digit c n s v : (beq c "-" || beq c "+")%bool = true -> digits_acc n (c :: s) = Some v -> False.
Proof.
  intros H. apply orb_true_iff in H as [H|H]; apply beq_true in H; subst; discriminate.
Qed.

Lemma denotes_int_cases c t z :
  denotes_int (c :: t) z <->
  let ds := if (beq c "-" || beq c "+")%bool then t else c :: t in
  ds <> [] /\ exists n, digits_acc 0 ds = Some n /\ z = if beq c "-" then (- Z.of_N n)%Z else Z.of_N n.
Proof.
  split.
  - inversion 1 as [d n Hn Hd E1 E2|d n Hn Hd E1 E2|d n Hn Hd E1 E2]; subst.
    + assert (E : (beq c "-" || beq c "+")%bool = false).
      { destruct (beq c "-" || beq c "+")%bool eqn:E; [|reflexivity].
        exfalso. eapply sign_not_digit; eassumption. }
      cbv zeta. rewrite E. apply orb_false_iff in E as [E _]. rewrite E.
      split; [discriminate|]. exists n. auto.
    + cbn. split; [assumption|]. exists n. auto.
    + cbn. split; [assumption|]. exists n. auto.
  - cbv zeta. intros [Hn (n & Hd & ->)].
    destruct (beq_spec c "-") as [->|H1]; cbn in *.
    + now constructor.
    + destruct (beq_spec c "+") as [->|H2]; cbn in *; now constructor.
Qed.

Lemma parse_int64_spec s z : parse_int64 s = Ok z <-> denotes_int s z /\ is_int64 z.
Proof.
  destruct s as [|c t].
  - split; [discriminate|]. intros [H _]. inversion H; congruence.
  - rewrite denotes_int_cases. cbn [parse_int64]. cbv zeta.
    set (ds := if (beq c "-" || beq c "+")%bool then t else c :: t).
    destruct ds as [|x ds'] eqn:E; [split; [discriminate|intros [[H _] _]; congruence]|].
    destruct (digits_acc 0 (x :: ds')) as [n|] eqn:Ed.
    + set (z' := if beq c "-" then (- Z.of_N n)%Z else Z.of_N n).
      destruct ((- two63 <=? z') && (z' <? two63))%Z%bool eqn:Er.
      * split.
        -- intros [= <-]. split; [split; [discriminate|exists n; auto]|]. unfold is_int64. lia.
        -- intros [[_ (n' & [= <-] & ->)] _]. reflexivity.
      * split; [discriminate|]. intros [[_ (n' & [= <-] & ->)] Hr]. unfold is_int64 in Hr.
        fold z' in Hr. lia.
    + split; [discriminate|]. intros [[_ (n' & H & _)] _]. discriminate.
Qed.

Lemma parse_int64_total s : parse_int64 s <> Panic.
Proof.
  destruct s as [|c t]; cbn; [discriminate|].
  destruct (if (beq c "-" || beq c "+")%bool then t else c :: t); [discriminate|].
  destruct (digits_acc 0 _); [|discriminate]. destruct (_ && _); discriminate.
Qed.

Lemma no_end_sp_denotes d z : denotes_int d z -> no_end_sp d.
Proof.
  intros H. inversion H as [d' n Hn Hd|d' n Hn Hd|d' n Hn Hd]; subst.
  - apply no_end_sp_digits; [assumption|]. eapply digits_acc_forall; eassumption.
  - pose proof (no_end_sp_digits d' Hn (digits_acc_forall _ _ _ Hd)) as [_ H2].
    split; [reflexivity|]. cbn. destruct (rev d'); [tauto|exact H2].
  - pose proof (no_end_sp_digits d' Hn (digits_acc_forall _ _ _ Hd)) as [_ H2].
    split; [reflexivity|]. cbn. destruct (rev d'); [tauto|exact H2].
Qed.

Lemma atoi_trim_unfold s :
  atoi_trim s =
  match trim_space s with
  | [] => Err (EText "syntax")
  | c :: t =>
      if (length (c :: t) <? 10)%nat then
        let ds := if (beq c "-" || beq c "+")%bool then t else c :: t in
        match ds with
        | [] => Err (EText "syntax")
        | _ => do n <- atoi_loop 0 ds;
               Ok (if beq c "-" then (- n)%Z else n)
        end
      else parse_int64 (c :: t)
  end.
Proof.
  destruct s; [reflexivity|]. unfold atoi_trim. cbv zeta.
  destruct (trim_space (b :: s)); reflexivity.
Qed.

(** Both paths agree with the denotation. *)
Lemma atoi_core c t z :
  (if (length (c :: t) <? 10)%nat then
     let ds := if (beq c "-" || beq c "+")%bool then t else c :: t in
     match ds with
     | [] => Err (EText "syntax")
     | _ => do n <- atoi_loop 0 ds;
            Ok (if beq c "-" then (- n)%Z else n)
     end
   else parse_int64 (c :: t)) = Ok z <-> denotes_int (c :: t) z /\ is_int64 z.
Proof.
  destruct (length (c :: t) <? 10)%nat eqn:El; [|apply parse_int64_spec].
  rewrite denotes_int_cases. cbv zeta.
  set (ds := if (beq c "-" || beq c "+")%bool then t else c :: t).
  assert (Hl : length ds <= 9).
  { apply Nat.ltb_lt in El. cbn in El. unfold ds. destruct (_ || _); cbn; lia. }
  destruct ds as [|x ds'] eqn:E; [split; [discriminate|intros [[H _] _]; congruence]|].
  pose proof (atoi_loop_digits 0 (x :: ds') ltac:(lia)) as HL. cbn [Z.to_N] in HL.
  destruct (atoi_loop 0 (x :: ds')) as [n|e|] eqn:Ea; destruct (digits_acc 0 (x :: ds')) as [v|] eqn:Ed;
    try contradiction; cbn [bind].
  - subst n. split.
    + intros [= <-]. split; [split; [discriminate|]; exists v; auto|].
      apply digits_acc_bound in Ed.
      assert (Hp : (10 ^ N.of_nat (length (x :: ds')) <= 10 ^ 9)%N) by (apply N.pow_le_mono_r; lia).
      change (10 ^ 9)%N with 1000000000%N in Hp.
      unfold is_int64, two63. destruct (beq c "-"); lia.
    + intros [[_ (n' & [= <-] & ->)] _]. reflexivity.
  - split; [discriminate|]. intros [[_ (n' & H & _)] _]. discriminate.
Qed.

Theorem atoi_trim_spec s z :
  atoi_trim s = Ok z <->
  exists i j d, s = sps i ++ d ++ sps j /\ denotes_int d z /\ is_int64 z.
Proof.
  rewrite atoi_trim_unfold. split.
  - intros H. destruct (trim_space_cases s) as [(i & j & d & -> & Hd)|Hs].
    + rewrite trim_space_pad in H by exact Hd.
      destruct d as [|c d]; [destruct Hd; tauto|].
      apply atoi_core in H as [H1 H2]. exists i, j, (c :: d). auto.
    + rewrite Hs, trim_space_sps in H. destruct (length s) as [|k]; [discriminate|].
      cbn [sps repeat] in H. apply atoi_core in H as [H _].
      exfalso. apply no_end_sp_denotes in H as [H _]. discriminate.
  - intros (i & j & d & -> & Hd & Hz).
    rewrite trim_space_pad by (eapply no_end_sp_denotes; exact Hd).
    destruct d as [|c d]; [inversion Hd; congruence|]. apply atoi_core. auto.
Qed.

Lemma denotes_format_int z : denotes_int (format_int z) z.
Proof.
  unfold format_int. destruct (z <? 0)%Z eqn:E.
  - replace z with (- Z.of_N (Z.to_N (- z)))%Z at 2 by lia.
    constructor; [apply format_uint_not_nil|apply digits_format].
  - replace z with (Z.of_N (Z.to_N z)) at 2 by lia.
    constructor; [apply format_uint_not_nil|apply digits_format].
Qed.

Lemma atoi_trim_format z : is_int64 z -> atoi_trim (format_int z) = Ok z.
Proof.
  intros H. apply atoi_trim_spec. exists 0, 0, (format_int z).
  split; [symmetry; apply app_nil_r|]. auto using denotes_format_int.
Qed.

Lemma parse_int64_format z : is_int64 z -> parse_int64 (format_int z) = Ok z.
Proof. intros H. apply parse_int64_spec. auto using denotes_format_int. Qed.

Lemma atoi_trim_total s : atoi_trim s <> Panic.
Proof.
  rewrite atoi_trim_unfold. destruct (trim_space s) as [|c t]; [discriminate|].
  destruct (_ <? _)%nat; [|apply parse_int64_total]. cbv zeta.
  destruct (if (beq c "-" || beq c "+")%bool then t else c :: t) as [|x ds]; [discriminate|].
  pose proof (atoi_loop_digits 0 (x :: ds) ltac:(lia)).
  destruct (atoi_loop 0 (x :: ds)); [discriminate|discriminate|contradiction].
Qed.

Lemma to_int64_small n : (Z.of_N n < two63)%Z -> to_int64 n = Z.of_N n.
Proof.
  intros H. unfold to_int64. rewrite N.mod_small by (unfold two63, two64 in *; lia).
  cbv zeta. destruct (Z.of_N n <? two63)%Z eqn:E; lia.
Qed.

Lemma to_uint64_small z : (0 <= z < two63)%Z -> to_uint64 z = Z.to_N z.
Proof. intros H. unfold to_uint64. rewrite Z.mod_small by lia. reflexivity. Qed.
