(** What is left in a message after a failed decoding. *)
From Coq Require Import Permutation.
From Verif Require Import Base BaseFacts Num NumFacts NumSpec Utf8 Utf8Facts SpecText SpecHash SpecNmdc SpecRead SpecFrame SpecReuse SpecStream NmdcText NmdcTextFacts.
From Verif Require Import NmdcChat NmdcHub NmdcFiles NmdcUser NmdcMessage Tiger TigerFacts NmdcChatFacts NmdcReuseFacts NmdcReadFacts NmdcReadChat NmdcReadCmd NmdcReadFiles NmdcReadHub NmdcReadUser NmdcReadMsg.
From Verif Require Import NmdcDecodeFacts NmdcCrashFacts NmdcOverFacts SpecNmdcLeft.
From Verif Require SpecAdcLeft AdcLeftFacts.

(** ** Values *)
Lemma refused {A} (R : bytes -> A -> Prop) (f : bytes -> res A) s :
  (forall x, f s = Ok x <-> R s x) -> f s <> Panic -> (refuses R s <-> exists e, f s = Err e).
Proof.
  intros H P. unfold refuses. split.
  - intros N. destruct (f s) as [x|e|] eqn:E; [exfalso; apply (N x); now apply H|eauto|congruence].
  - intros [e E] x X. apply H in X. congruence.
Qed.
Lemma name_no dec s : refuses (name_read dec) s <-> exists e, name_unmarshal dec s = Err e.
Proof. apply refused; [intros x; apply name_iff|apply name_unmarshal_total]. Qed.
Lemma str_no dec s : refuses (str_read dec) s <-> exists e, string_unmarshal dec s = Err e.
Proof. apply refused; [intros x; apply str_iff|apply string_unmarshal_total]. Qed.
Lemma uint_no s : refuses uint_read s <-> exists e, parse_uint_trim s = Err e.
Proof. apply refused; [intros x; apply uint_iff|apply parse_uint_trim_total]. Qed.
Lemma int_no s : refuses int_read s <-> exists e, atoi_trim s = Err e.
Proof. apply refused; [intros x; apply int_iff|apply atoi_trim_total]. Qed.
Lemma name_no' dec s e : name_unmarshal dec s = Err e -> refuses (name_read dec) s.
Proof. intros E. apply name_no. eauto. Qed.
Lemma str_no' dec s e : string_unmarshal dec s = Err e -> refuses (str_read dec) s.
Proof. intros E. apply str_no. eauto. Qed.
Lemma uint_no' s e : parse_uint_trim s = Err e -> refuses uint_read s.
Proof. intros E. apply uint_no. eauto. Qed.
Lemma int_no' s e : atoi_trim s = Err e -> refuses int_read s.
Proof. intros E. apply int_no. eauto. Qed.
Lemma cut_no c s : cut c s = None -> forall a r, ~ first [c] s a r.
Proof. intros E a r F. apply (first_cut c) in F. congruence. Qed.
Lemma cut_seq_no p s : cut_seq p s = None -> forall a r, ~ first p s a r.
Proof. intros E a r F. apply first_cut_seq in F. congruence. Qed.
Lemma part_none {A} p (R : bytes -> A -> Prop) s : (forall a r, ~ first p s a r) -> part_refused p R s.
Proof. intros N a r F. exfalso. eapply N, F. Qed.
Lemma first_same p s a r a' r' : first p s a r -> first p s a' r' -> a = a' /\ r = r'.
Proof. intros H H'. apply first_cut_seq in H, H'. rewrite H in H'. injection H' as -> ->. auto. Qed.
Lemma part_bad {A} p (R : bytes -> A -> Prop) s a r : first p s a r -> refuses R a -> part_refused p R s.
Proof. intros F N a' r' F'. destruct (first_same _ _ _ _ _ _ F F') as [<- _]. exact N. Qed.

(** Following a decoder: both branches of the first match of [H]. *)
Ltac both H :=
  cbv zeta in H;
  match type of H with
  | (match cut_seq ?p ?d with _ => _ end) = _ => let E := fresh "E" in destruct (cut_seq p d) as [[? ?]|] eqn:E; [apply first_cut_seq in E|pose proof (cut_seq_no _ _ E); clear E]
  | (match cut ?c ?d with _ => _ end) = _ => let E := fresh "E" in destruct (cut c d) as [[? ?]|] eqn:E; [apply first_cut in E|pose proof (cut_no _ _ E); clear E]
  | (match name_unmarshal ?c ?d with _ => _ end) = _ => let E := fresh "E" in destruct (name_unmarshal c d) as [?|?|] eqn:E; [apply name_iff in E|apply name_no' in E|discriminate H]
  | (match string_unmarshal ?c ?d with _ => _ end) = _ => let E := fresh "E" in destruct (string_unmarshal c d) as [?|?|] eqn:E; [apply str_iff in E|apply str_no' in E|discriminate H]
  | (match parse_uint_trim ?d with _ => _ end) = _ => let E := fresh "E" in destruct (parse_uint_trim d) as [?|?|] eqn:E; [apply uint_iff in E|apply uint_no' in E|discriminate H]
  | (match atoi_trim ?d with _ => _ end) = _ => let E := fresh "E" in destruct (atoi_trim d) as [?|?|] eqn:E; [apply int_iff in E|apply int_no' in E|discriminate H]
  end.
(** The state a decoder stopped in. *)
Ltac setters := cbv beta iota zeta delta [
    set_ch_name set_ch_text set_pm_to set_pm_from set_pm_name set_pm_text set_mt_to set_mt_from set_mt_text set_uc_typ set_uc_context
    set_uc_path set_uc_command set_ct_targ set_ct_src set_ct_address set_ct_kind set_ct_secure set_rc_from set_rc_to ch_name ch_text pm_to
    pm_from pm_name pm_text mt_to mt_from mt_text uc_typ uc_context uc_path uc_command ct_targ ct_src ct_address ct_kind ct_secure rc_from
    rc_to set_ag_type set_ag_ident set_ag_start set_ag_length set_ag_compressed set_ag_downloaded set_as_type set_as_ident set_as_start
    set_as_length set_as_compressed set_di_upload set_di_number set_se_address set_se_user set_se_restricted set_se_ismax set_se_size
    set_se_dtype set_se_pattern set_se_tth set_sr_from set_sr_path set_sr_isdir set_sr_size set_sr_free set_sr_total set_sr_hubname
    set_sr_tth set_sr_hubaddr set_sr_to set_sa_tth set_sa_address set_sp_tth set_sp_user ag_type ag_ident ag_start ag_length ag_compressed
    ag_downloaded as_type as_ident as_start as_length as_compressed di_upload di_number se_address se_user se_restricted se_ismax se_size
    se_dtype se_pattern se_tth sr_from sr_path sr_isdir sr_size sr_free sr_total sr_hubname sr_tth sr_hubaddr sr_to sa_tth sa_address sp_tth
    sp_user set_lk_noext set_lk_lock set_lk_pk set_lk_ref set_hi_name set_hi_host set_hi_desc set_hi_i1 set_hi_i2 set_hi_i3 set_hi_i4
    set_hi_soft set_hi_vers set_hi_owner set_hi_state set_hi_encoding lk_noext lk_lock lk_pk lk_ref hi_name hi_host hi_desc hi_i1 hi_i2
    hi_i3 hi_i4 hi_soft hi_vers hi_owner hi_state hi_encoding set_mi_name set_mi_desc set_mi_client set_mi_version set_mi_mode
    set_mi_hubs_normal set_mi_hubs_reg set_mi_hubs_op set_mi_slots set_mi_extra set_mi_conn set_mi_flag set_mi_email set_mi_share mi_name
    mi_desc mi_client mi_version mi_mode mi_hubs_normal mi_hubs_reg mi_hubs_op mi_slots mi_extra mi_conn mi_flag mi_email mi_share].
Ltac stop H := injection H as <- _; setters.
(** The failing branch of a step that is about a part before a separator. *)
Ltac refusal := first [eapply part_bad; eassumption|apply part_none; assumption|eassumption].
(** Rewriting a decoder with the parts that are refused. *)
Ltac no_step :=
  cbv zeta;
  match goal with
  | H : refuses (name_read ?c) ?d |- context [name_unmarshal ?c ?d] => let e := fresh "e" in destruct (proj1 (name_no c d) H) as [e ->]; cbv iota beta
  | H : refuses (str_read ?c) ?d |- context [string_unmarshal ?c ?d] => let e := fresh "e" in destruct (proj1 (str_no c d) H) as [e ->]; cbv iota beta
  | H : refuses uint_read ?d |- context [parse_uint_trim ?d] => let e := fresh "e" in destruct (proj1 (uint_no d) H) as [e ->]; cbv iota beta
  | H : refuses int_read ?d |- context [atoi_trim ?d] => let e := fresh "e" in destruct (proj1 (int_no d) H) as [e ->]; cbv iota beta
  | H : part_refused ?p _ ?d |- context [cut_seq ?q ?d] => let E := fresh "E" in destruct (cut_seq q d) as [[? ?]|] eqn:E; [apply first_cut_seq in E; specialize (H _ _ E)|]; cbv iota beta
  | H : part_refused ?p _ ?d |- context [cut ?q ?d] => let E := fresh "E" in destruct (cut q d) as [[? ?]|] eqn:E; [apply first_cut in E; specialize (H _ _ E)|]; cbv iota beta
  end.
Ltac follow := repeat first [back_step|no_step]; setters; eexists; reflexivity.

Lemma leading_bound s : forall a, (leading_value a s < (a + 1) * 10 ^ N.of_nat (length s))%N.
Proof.
  induction s as [|c s IH]; intros a; cbn [leading_value length]; [rewrite N.pow_0_r; lia|].
  rewrite Nat2N.inj_succ, N.pow_succ_r'. assert (P : (1 <= 10 ^ N.of_nat (length s))%N) by (pose proof (N.pow_nonzero 10 (N.of_nat (length s))); lia).
  destruct (is_digit c) eqn:D; [|nia]. specialize (IH (a * 10 + digit_val c)%N).
  assert (V : (digit_val c <= 9)%N). { apply is_digit_iff in D. unfold digit_char in D. unfold digit_val. lia. }
  nia.
Qed.
Lemma short_value d : SpecAdcLeft.no_number d -> (length d <? 10)%nat = true -> parse_int64_value d = 0%Z.
Proof.
  intros NN L. apply Nat.ltb_lt in L. rewrite (AdcLeftFacts.int_value d NN). set (u := AdcLeftFacts.unsigned d).
  assert (Lu : length u < 10) by (unfold u, AdcLeftFacts.unsigned; destruct d as [|c t]; [lia|]; destruct (_ || _)%bool; cbn [length] in *; lia).
  assert (P : (10 ^ N.of_nat (length u) <= 10 ^ 9)%N) by (apply N.pow_le_mono_r; lia).
  assert (B1 : (leading_value 0 u < 10 ^ 9)%N) by (pose proof (leading_bound u 0); lia).
  destruct (N.leb_spec (2 ^ 64) (leading_value 0 u)) as [X|_]; [exfalso; change (10 ^ 9)%N with 1000000000%N in B1; change (2 ^ 64)%N with 18446744073709551616%N in X; lia|]. cbn [orb].
  destruct (negb (bytes_eqb u []) && forallb is_digit u)%bool eqn:E; [|reflexivity]. exfalso. apply andb_true_iff in E as [E1 E2].
  assert (Nu : u <> []) by (intros X; rewrite X in E1; discriminate). assert (Fu : Forall digit_char u) by (rewrite Forall_forall; rewrite forallb_forall in E2; intros c I'; apply is_digit_iff, E2, I').
  assert (V : dec_value u = leading_value 0 u).
  { destruct (AdcLeftFacts.leading_split u 0%N) as (x & r & Ex & Fx & Vx & Rx). rewrite Vx. destruct r as [|c r]; [rewrite app_nil_r in Ex; now rewrite Ex|].
    exfalso. apply Rx. rewrite Ex in Fu. apply Forall_app in Fu as [_ Fu]. now inversion Fu. }
  assert (D : decimal u (dec_value u)) by (split; [exact Nu|split; [exact Fu|reflexivity]]).
  assert (G : (Z.of_N (dec_value u) < 2 ^ 62)%Z) by (rewrite V; change (2 ^ 62)%Z with 4611686018427387904%Z; change (10 ^ 9)%N with 1000000000%N in B1; lia).
  change (2 ^ 62)%Z with 4611686018427387904%Z in G.
  assert (K : exists z, signed_decimal d z /\ SpecAdc.int64 z).
  { unfold SpecAdc.int64. change (2 ^ 63)%Z with 9223372036854775808%Z. unfold u, AdcLeftFacts.unsigned in *. destruct d as [|c t]; [contradiction|]. destruct (beq_spec c "-") as [->|N1]; cbn [orb] in *.
    - exists (- Z.of_N (dec_value t))%Z. split; [|lia]. exists t, (dec_value t). split; [exact D|]. auto.
    - destruct (beq_spec c "+") as [->|N2]; cbn [orb] in *.
      + exists (Z.of_N (dec_value t)). split; [|lia]. exists t, (dec_value t). split; [exact D|]. auto.
      + exists (Z.of_N (dec_value (c :: t))). split; [|lia]. exists (c :: t), (dec_value (c :: t)). split; [exact D|]. auto. }
  destruct K as (z & K1 & K2). now apply (NN z).
Qed.
Lemma no_end_iff d : no_end_sp d <-> d <> [] /\ ~ starts_with (B " ") d /\ ~ ends_in " " d.
Proof.
  unfold no_end_sp, starts_with, ends_in. split.
  - intros [H1 H2]. destruct d as [|c d]; [contradiction|]. split; [discriminate|]. split.
    + intros [r [= -> _]]. discriminate.
    + intros [a E]. rewrite E, rev_app_distr in H2. discriminate.
  - intros (N & S1 & S2). split.
    + destruct d as [|c d]; [contradiction|]. unfold is_sp. destruct (beq_spec c " ") as [->|_]; [|reflexivity]. exfalso. apply S1. now exists d.
    + destruct (rev d) as [|c r] eqn:E; [apply N; rewrite <- (rev_involutive d), E; reflexivity|]. unfold is_sp. destruct (beq_spec c " ") as [->|_]; [|reflexivity].
      exfalso. apply S2. exists (rev r). rewrite <- (rev_involutive d), E. reflexivity.
Qed.
Lemma no_number_space n : SpecAdcLeft.no_number (sps n).
Proof.
  intros z (d & v & [Dn [Df _]] & E) _. destruct d as [|c d]; [contradiction|]. inversion Df as [|? ? Dc _]; subst. destruct n as [|n]; [destruct E as [[E _]|[[E _]|[E _]]]; discriminate|].
  destruct E as [[E _]|[[E _]|[E _]]]; [|discriminate|discriminate]. injection E as <- _. revert Dc. unfold digit_char. cbn. lia.
Qed.
Lemma int_left_iff s z : refuses int_read s -> (atoi_value s = z <-> int_left s z).
Proof.
  intros N. destruct (proj1 (int_no s) N) as [e E]. unfold atoi_value. rewrite E. unfold int_left.
  assert (NN : forall d, padded s d -> SpecAdcLeft.no_number d).
  { intros d P x X1 X2. apply (N x). exists d. split; [exact P|]. split; [exact X1|exact X2]. }
  destruct (trim_space_cases s) as [(i & j & d & Es & Hd)|Es].
  - assert (P : padded s d) by (exists i, j; exact Es). rewrite Es, trim_space_pad by exact Hd. rewrite <- Es.
    assert (V : (if (length d <? 10)%nat then 0%Z else parse_int64_value d) = parse_int64_value d).
    { destruct (length d <? 10)%nat eqn:L; [|reflexivity]. symmetry. apply short_value; [now apply NN|exact L]. }
    rewrite V, (AdcLeftFacts.number_left_iff d z (NN d P)). split.
    + intros H. exists d. apply no_end_iff in Hd as (_ & H1 & H2). auto.
    + intros (d' & (i' & j' & Es') & S1 & S2 & H). assert (d' = d) as ->; [|exact H].
      destruct d' as [|c d'].
      * exfalso. assert (X : s = sps (i' + j')) by (rewrite Es'; unfold sps; now rewrite repeat_app). destruct Hd as [Hd _]. rewrite Es in X. destruct d as [|c d]; [contradiction|].
        apply (f_equal (forallb is_sp)) in X. rewrite sps_forallb, !forallb_app in X. cbn [forallb] in X. rewrite Hd in X. rewrite andb_false_r in X. discriminate.
      * assert (T : trim_space s = c :: d') by (rewrite Es'; apply trim_space_pad; apply no_end_iff; split; [discriminate|auto]). rewrite Es, trim_space_pad in T by exact Hd. now symmetry.
  - assert (V : (if (length (trim_space s) <? 10)%nat then 0%Z else parse_int64_value (trim_space s)) = 0%Z).
    { destruct (_ <? _)%nat; [reflexivity|]. rewrite Es, trim_space_sps. rewrite (AdcLeftFacts.int_value _ (no_number_space _)). generalize (length s). intros [|n]; reflexivity. }
    rewrite V. assert (P0 : padded s []) by (exists (length s), 0; rewrite app_nil_r; exact Es). assert (NL := AdcLeftFacts.number_left_iff [] z (NN [] P0)). change (parse_int64_value []) with 0%Z in NL. rewrite NL. split.
    + intros H. exists []. split; [exact P0|]. split; [intros [r X]; discriminate|]. split; [intros [[|? a] X]; discriminate|exact H].
    + intros (d' & (i' & j' & Es') & S1 & S2 & H). destruct d' as [|c d']; [exact H|]. exfalso. apply S1. rewrite Es in Es'.
      apply (f_equal (forallb is_sp)) in Es'. rewrite sps_forallb, !forallb_app in Es'. cbn [forallb] in Es'. symmetry in Es'. rewrite !andb_true_iff in Es'. destruct Es' as [_ [[X _] _]]. apply beq_true in X. subst c. now exists d'.
Qed.
Lemma hash_left_iff h0 s h : length h0 = 24 -> refuses hash_read s -> fst (hash_unmarshal_base32 h0 s) <> Panic ->
  ((exists e, hash_unmarshal_base32 h0 s = (Err e, h)) <-> hash_left s h0 h).
Proof.
  intros L N P. assert (X : exists e, fst (hash_unmarshal_base32 h0 s) = Err e).
  { destruct (hash_unmarshal_base32 h0 s) as [[[]|e|] x] eqn:E; cbn in *; [|eauto|congruence]. exfalso. apply (N x). now apply (hash_iff h0 s x L). }
  destruct X as [e X]. pose proof (AdcLeftFacts.hash_left s h0 h) as H. unfold hash_left. rewrite <- H.
  - destruct (hash_unmarshal_base32 h0 s) as [r x]. cbn in *. subst r. split; [intros [e' [= _ ->]]; reflexivity|intros ->; eauto].
  - destruct (hash_unmarshal_base32 h0 s) as [r x]. cbn in *. subst r. discriminate.
Qed.
Lemma fresh_hash s h : refuses hash_read s -> ~ starts_with_symbols 40 (unbroken s) ->
  ((exists e, new_tth s = (h, Err e)) <-> hash_left s (repeat x00 24) h).
Proof.
  intros N C. assert (P : fst (hash_unmarshal_base32 (repeat x00 24) s) <> Panic).
  { pose proof (tth_panics s) as T. unfold new_tth in T. change hash_size with 24 in T. destruct (hash_unmarshal_base32 (repeat x00 24) s) as [r x]. cbn in *. tauto. }
  rewrite <- (hash_left_iff (repeat x00 24) s h eq_refl N P). unfold new_tth. change hash_size with 24. destruct (hash_unmarshal_base32 (repeat x00 24) s) as [r x]. split; intros [e [= -> ->]]; eauto.
Qed.

(** ** Chat *)
Lemma chat_lefts dec o data m : (exists e, chat_unmarshal dec o data = (m, Err e)) <-> chat_left dec o data m.
Proof.
  assert (P : forall c d m', (exists e, chat_text dec c d = (m', Err e)) <-> m' = c /\ refuses (str_read dec) d).
  { intros c d m'. unfold chat_text. rewrite str_no. split.
    - intros [e H]. destruct (string_unmarshal dec d) as [t|e'|]; try discriminate. stop H. eauto.
    - intros [-> [e ->]]. eauto. }
  split.
  - intros [e H]. destruct data as [|c d].
    + destruct (proj1 (P o [] m) (ex_intro _ e H)) as [-> R]. apply cl_plain; [intros [r X]; discriminate|exact R].
    + cbn [chat_unmarshal] in H. destruct (beq_spec c "<") as [->|N].
      * destruct (name_end (S (length d)) d 0) as [[i off]|e'|] eqn:E; try discriminate.
        -- assert (Pa : chat_parts d (firstn i d) (skipn (i + off) d)) by (apply name_end_iff; eauto).
           assert (U : forall n t, chat_parts d n t -> n = firstn i d /\ t = skipn (i + off) d).
           { intros n t X. apply name_end_iff in X as (i' & off' & E' & -> & ->). rewrite E in E'. injection E' as <- <-. auto. }
           destruct (Nat.ltb_spec max_name (length (firstn i d))) as [L|L].
           { stop H. change ("<"%byte :: d) with (B "<" ++ d). apply cl_name. intros n t X x [Lx _]. apply U in X as [-> _]. unfold max_name in L. lia. }
           both H.
           ++ destruct (proj1 (P _ _ m) (ex_intro _ e H)) as [-> R]. change ("<"%byte :: d) with (B "<" ++ d). eapply cl_text; eassumption.
           ++ stop H. change ("<"%byte :: d) with (B "<" ++ d). apply cl_name. intros n t X. apply U in X as [-> _]. assumption.
        -- stop H. change ("<"%byte :: d) with (B "<" ++ d). apply cl_name. intros n t X. apply name_end_iff in X as (i' & off' & E' & _). congruence.
      * destruct (proj1 (P o (c :: d) m) (ex_intro _ e H)) as [-> R]. apply cl_plain; [intros [r X]; injection X as X _; congruence|exact R].
  - intros [data' N R|d N|d n t name Pa Hn R].
    + assert (K : exists e, chat_text dec o data' = (o, Err e)) by (apply P; auto).
      destruct data' as [|c d]; [exact K|]. cbn [chat_unmarshal]. destruct (beq_spec c "<") as [->|_]; [|exact K]. exfalso. apply N. exists d. reflexivity.
    + change (B "<" ++ d) with ("<"%byte :: d). cbn [chat_unmarshal]. change (beq "<" "<") with true. cbv iota.
      destruct (name_end (S (length d)) d 0) as [[i off]|e'|] eqn:E; [|eauto|exfalso; now apply name_end_total in E].
      assert (Pa : chat_parts d (firstn i d) (skipn (i + off) d)) by (apply name_end_iff; eauto). apply N in Pa. destruct (max_name <? _)%nat; [eauto|]. follow.
    + apply name_end_iff in Pa as (i & off & E & -> & ->). change (B "<" ++ d) with ("<"%byte :: d). cbn [chat_unmarshal]. change (beq "<" "<") with true. cbv iota. rewrite E.
      destruct (Nat.ltb_spec max_name (length (firstn i d))) as [L|_].
      { exfalso. destruct Hn as [L' _]. unfold max_name in L. lia. }
      repeat back_step. apply P. auto.
Qed.
Lemma pm_lefts dec o data m : (exists e, pm_unmarshal dec o data = (m, Err e)) <-> pm_left dec o data m.
Proof.
  split.
  - intros [e H]. unfold pm_unmarshal in H. both H; [|stop H; apply pl_to; refusal].
    both H; [|stop H; apply pl_to; refusal]. both H; [|stop H; eapply pl_from; refusal].
    both H; [|stop H; eapply pl_from; refusal]. both H; [|stop H; eapply pl_name; refusal].
    both H; [|stop H; eapply pl_name; refusal]. both H; [discriminate|]. stop H. eapply pl_text; refusal.
  - intros []; unfold pm_unmarshal; repeat first [back_step|no_step]; setters; eexists; reflexivity.
Qed.
Lemma mcto_lefts dec o data m : (exists e, mcto_unmarshal dec o data = (m, Err e)) <-> mcto_left dec o data m.
Proof.
  split.
  - intros [e H]. unfold mcto_unmarshal in H. both H; [|stop H; apply ml_to; refusal].
    both H; [|stop H; apply ml_to; refusal]. both H; [|stop H; eapply ml_from; refusal].
    both H; [|stop H; eapply ml_from; refusal]. both H; [discriminate|]. stop H. eapply ml_text; refusal.
  - intros []; unfold mcto_unmarshal; repeat first [back_step|no_step]; setters; eexists; reflexivity.
Qed.
Lemma rctm_lefts dec o data m : (exists e, rctm_unmarshal dec o data = (m, Err e)) <-> rctm_left dec o data m.
Proof.
  split.
  - intros [e H]. unfold rctm_unmarshal in H. both H; [|stop H; apply rl_from; refusal].
    both H; [|stop H; apply rl_from; refusal]. both H; [discriminate|]. stop H. eapply rl_to; refusal.
  - intros []; unfold rctm_unmarshal; repeat first [back_step|no_step]; setters; eexists; reflexivity.
Qed.
Lemma ctm_lefts dec o data m : (exists e, ctm_unmarshal dec o data = (m, Err e)) <-> ctm_left dec o data m.
Proof.
  split.
  - intros [e H]. unfold ctm_unmarshal in H. both H; [|stop H; apply ctl_targ; refusal].
    both H; [|stop H; apply ctl_targ; refusal]. both H.
    + both H; [exfalso; clear - H|stop H; eapply ctl_src; refusal]. destruct (last_is "S" _); (destruct (last_is "N" _); [|destruct (last_is "R" _)]); discriminate.
    + exfalso; clear - H. destruct (last_is "S" _); (destruct (last_is "N" _); [|destruct (last_is "R" _)]); discriminate.
  - intros []; unfold ctm_unmarshal; repeat first [back_step|no_step]; setters; eexists; reflexivity.
Qed.

(** ** User commands *)
Lemma list_left_cons {A} (R : bytes -> A -> Prop) p ps l : list_left R (p :: ps) l <->
  refuses R p /\ l = [] \/ exists x l', R p x /\ l = x :: l' /\ list_left R ps l'.
Proof.
  unfold list_left. split.
  - intros (done & bad & rest & E & F & N). destruct done as [|d done]; cbn in E; injection E as -> ->; inversion F; subst; [auto|right; eauto 10].
  - intros [[N ->]|(x & l' & Rx & -> & done & bad & rest & -> & F & N)]; [exists [], p, ps; auto|]. exists (p :: done), bad, rest. auto.
Qed.
Lemma list_left_nil {A} (R : bytes -> A -> Prop) l : ~ list_left R [] l.
Proof. intros (done & bad & rest & E & _). now destruct done. Qed.
Lemma path_left dec l : forall acc p, (exists e, unmarshal_path dec l acc = (p, Err e)) <-> exists r, p = acc ++ r /\ list_left (str_read dec) (filled l) r.
Proof.
  induction l as [|s l IH]; intros acc p.
  - cbn [unmarshal_path]. split; [intros [e H]; discriminate|intros (r & _ & H); now apply list_left_nil in H].
  - destruct s as [|c s]; [apply IH|]. cbn [unmarshal_path]. change (filled ((c :: s) :: l)) with ((c :: s) :: filled l).
    destruct (string_unmarshal dec (c :: s)) as [x|e|] eqn:E; [apply str_iff in E|apply str_no' in E|now apply string_unmarshal_total in E].
    + rewrite IH. split.
      * intros (r & -> & H). exists (x :: r). split; [now rewrite <- app_assoc|]. apply list_left_cons. right. exists x, r. auto.
      * intros (r & -> & H). apply list_left_cons in H as [[N _]|(x' & l' & Hx & -> & H)]; [exfalso; now apply (N x)|]. apply str_iff in E, Hx. rewrite E in Hx. injection Hx as <-.
        exists l'. split; [now rewrite <- app_assoc|exact H].
    + split.
      * intros [e' H]. stop H. exists []. split; [now rewrite app_nil_r|]. apply list_left_cons. auto.
      * intros (r & -> & H). apply list_left_cons in H as [[_ ->]|(x & l' & Hx & _)]; [rewrite app_nil_r; eauto|exfalso; now apply (E x)].
Qed.
Lemma leading_no s : refuses leading s <-> refuses int_read (take_digits s).
Proof. unfold refuses. split; intros H z; specialize (H z); rewrite leading_iff in *; exact H. Qed.
Lemma take_digits_first r b v : first (B " ") r b v -> take_digits r = take_digits b.
Proof.
  intros [-> _]. induction b as [|c b IH]; [reflexivity|]. cbn [app take_digits]. destruct (is_digit_char c); [f_equal; exact IH|reflexivity].
Qed.
Lemma ucmd_lefts dec o data m : (exists e, ucmd_unmarshal dec o data = (m, Err e)) <-> ucmd_left dec o data m.
Proof.
  split.
  - intros [e H]. unfold ucmd_unmarshal in H. pose proof (proj2 (trimmed_iff data _) eq_refl) as T. set (core := trim_white data) in *. clearbody core. cbn [splitn_byte] in H.
    destruct (cut " " core) as [[a r]|] eqn:C; [apply first_cut in C|stop H; apply (ul_type dec o data core); [exact T|apply part_none, cut_no, C]].
    assert (K : exists b arr, match cut " " r with Some (a, r0) => a :: [r0] | None => [r] end = b :: arr /\ take_digits b = take_digits r /\ (forall v x, arr = v :: x -> first (B " ") r b v)).
    { destruct (cut " " r) as [[b v]|] eqn:C2; [apply first_cut in C2; exists b, [v]|exists r, []]; (split; [reflexivity|]). { split; [symmetry; eapply take_digits_first, C2|]. intros ? ? [= <- _]. exact C2. } split; [reflexivity|discriminate]. }
    destruct K as (b & arr & Eb & Td & Ar). rewrite Eb in H. clear Eb.
    both H; [|stop H; apply (ul_type dec o data core); [exact T|eapply part_bad; eassumption]].
    cbv zeta in H. destruct (atoi_trim (take_digits b)) as [c|e'|] eqn:Ec; [apply int_iff in Ec|apply int_no' in Ec|discriminate].
    2: { stop H. eapply ul_context; [exact T|exact C|exact E|]. apply leading_no. now rewrite <- Td. }
    destruct arr as [|v arr]; [discriminate|]. specialize (Ar v arr eq_refl). apply leading_iff in Ec.
    destruct (cut "$" v) as [[p rest]|] eqn:Cd; [apply first_cut in Cd|].
    2: { stop H. eapply ul_raw; try eassumption. intros p c' F. exfalso. eapply cut_no; [exact Cd|exact F]. }
    destruct p as [|c0 p]; [stop H; eapply ul_raw; try eassumption; intros p c' F; now destruct (first_same _ _ _ _ _ _ F Cd) as [-> _]|].
    cbv zeta in H. destruct (trim_right_sp (c0 :: p)) as (k & Ek & Nk). set (q := trim_right_by is_sp (c0 :: p)) in *. clearbody q.
    destruct (unmarshal_path dec (split_byte "\" q) []) as [path res] eqn:Up. assert (Sp : split_on (B "\") q (split_byte "\" q)) by now apply (split_on_byte "\").
    destruct res as [[]|e'|]; [|stop H|discriminate].
    + apply unmarshal_path_ok in Up as (r' & -> & F). both H; [discriminate|]. stop H.
      eapply ul_command; [exact T|exact C|exact E|exact Ar|exact Ec|rewrite <- Ek; exact Cd|rewrite <- Ek; discriminate|exact Nk|exact Sp|exact F|assumption].
    + destruct (proj1 (path_left dec _ [] path) (ex_intro _ e' Up)) as (r' & -> & F).
      eapply ul_path; [exact T|exact C|exact E|exact Ar|exact Ec|rewrite <- Ek; exact Cd|rewrite <- Ek; discriminate|exact Nk|exact Sp|exact F].
  - assert (S3 : forall core a r, first (B " ") core a r -> exists b arr, splitn_byte 3 " " core = a :: b :: arr /\ take_digits b = take_digits r /\ forall b' v, first (B " ") r b' v -> b = b' /\ arr = [v]).
    { intros core a r F. apply (first_cut " ") in F. cbn [splitn_byte]. rewrite F. destruct (cut " " r) as [[b v]|] eqn:C2; [exists b, [v]|exists r, []]; (split; [reflexivity|]).
      - apply first_cut in C2. split; [symmetry; eapply take_digits_first, C2|]. intros b' v' F'. destruct (first_same _ _ _ _ _ _ C2 F') as [-> ->]. auto.
      - split; [reflexivity|]. intros b' v' F'. exfalso. eapply cut_no; [exact C2|exact F']. }
    intros H; destruct H as [core T P|core a r typ T C Ia N|core a r b v typ ctx T C Ia Cb L N|core a r b v p c k ps typ ctx path T C Ia Cb L Cd Np Nk Sp F|core a r b v p c k ps typ ctx path T C Ia Cb L Cd Np Nk Sp F N];
      apply trimmed_iff in T; unfold ucmd_unmarshal; rewrite <- T.
    + destruct (cut " " core) as [[a r]|] eqn:C; [|cbn [splitn_byte]; rewrite C; eauto]. apply first_cut in C. destruct (S3 _ _ _ C) as (b & arr & -> & _). specialize (P _ _ C). follow.
    + destruct (S3 _ _ _ C) as (b' & arr & -> & Td & _). apply leading_no in N. rewrite <- Td in N. follow.
    + destruct (S3 _ _ _ C) as (b' & arr & -> & Td & A). destruct (A _ _ Cb) as [-> ->]. apply leading_iff in L. repeat back_step.
      destruct (cut "$" v) as [[p c]|] eqn:Cd; [|eauto]. apply first_cut in Cd. rewrite (N _ _ Cd). eauto.
    + destruct (S3 _ _ _ C) as (b' & arr & -> & Td & A). destruct (A _ _ Cb) as [-> ->]. apply leading_iff in L. repeat back_step.
      destruct (p ++ repeat " "%byte k) as [|c0 p'] eqn:Ep; [contradiction|]. rewrite <- Ep, trim_right_sp_iff by exact Nk. apply (split_on_byte "\") in Sp. rewrite <- Sp. destruct (proj2 (path_left dec ps [] path) (ex_intro _ path (conj eq_refl F))) as [e ->].
      eauto.
    + destruct (S3 _ _ _ C) as (b' & arr & -> & Td & A). destruct (A _ _ Cb) as [-> ->]. apply leading_iff in L. repeat back_step.
      destruct (p ++ repeat " "%byte k) as [|c0 p'] eqn:Ep; [contradiction|]. rewrite <- Ep, trim_right_sp_iff by exact Nk. apply (split_on_byte "\") in Sp. rewrite <- Sp. rewrite (proj2 (unmarshal_path_ok dec ps [] path) (ex_intro _ path (conj eq_refl F))).
      follow.
Qed.

(** ** Files *)
Lemma flag_list_app done rest : forall m m', flag_list m done = (m', Ok tt) -> flag_list m (done ++ rest) = flag_list m' rest.
Proof.
  induction done as [|f done IH]; intros m m'; cbn [flag_list app]; [intros [= <-]; reflexivity|].
  destruct (bytes_eqb f (B "ZL1")); [apply IH|]. destruct (has_prefix (B "DB") f); [|apply IH]. destruct (parse_uint_trim (skipn 2 f)); [apply IH|discriminate|discriminate].
Qed.
Lemma flag_list_err fs : forall m m', (exists e, flag_list m fs = (m', Err e)) <->
  exists done x rest, fs = done ++ (B "DB" ++ x) :: rest /\ flag_list m done = (m', Ok tt) /\ refuses uint_read x.
Proof.
  assert (Back : forall m m' done x rest, flag_list m done = (m', Ok tt) -> refuses uint_read x -> exists e, flag_list m (done ++ (B "DB" ++ x) :: rest) = (m', Err e)).
  { intros m m' done x rest H N. rewrite (flag_list_app _ _ _ _ H). cbn [flag_list]. destruct (bytes_eqb_spec (B "DB" ++ x) (B "ZL1")) as [E|_]; [discriminate|]. rewrite has_prefix_app. change (skipn 2 (B "DB" ++ x)) with x. follow. }
  intros m m'. split; [|intros (done & x & rest & -> & H & N); now apply Back]. intros [e H]. revert m H. induction fs as [|f fs IH]; intros m; cbn [flag_list]; [discriminate|].
  destruct (bytes_eqb f (B "ZL1")) eqn:Z.
  { intros H. apply IH in H as (done & x & rest & -> & H & N). exists (f :: done), x, rest. split; [reflexivity|]. split; [cbn [flag_list]; now rewrite Z|exact N]. }
  destruct (has_prefix (B "DB") f) eqn:P.
  - destruct (parse_uint_trim (skipn 2 f)) as [n|e'|] eqn:U; [|intros [= <- _]|discriminate].
    + intros H. apply IH in H as (done & x & rest & -> & H & N). exists (f :: done), x, rest. split; [reflexivity|]. split; [cbn [flag_list]; now rewrite Z, P, U|exact N].
    + apply has_prefix_spec in P as [x ->]. change (skipn 2 (B "DB" ++ x)) with x in U. exists [], x, fs. split; [reflexivity|]. split; [reflexivity|]. now apply uint_no' in U.
  - intros H. apply IH in H as (done & x & rest & -> & H & N). exists (f :: done), x, rest. split; [reflexivity|]. split; [cbn [flag_list]; now rewrite Z, P|exact N].
Qed.
Lemma flags_left m d r l fs m' : cut_or_all d = (l, r) -> split_on (B " ") d (l :: fs) -> ((exists e, adcget_flags (length r) m r = (m', Err e)) <-> exists e, flag_list m fs = (m', Err e)).
Proof.
  intros C Sp. rewrite flags_list by lia. destruct (cut_or_all_split _ _ _ C) as (fs' & Sp' & R). apply (split_on_byte " ") in Sp, Sp'. rewrite <- Sp' in Sp. injection Sp as ->.
  destruct R as [[-> ->]| ->]; [|reflexivity]. cbn. split; intros [e X]; discriminate.
Qed.
Lemma adcget_lefts dec o data m : (exists e, adcget_unmarshal dec o data = (m, Err e)) <-> adcget_left dec o data m.
Proof.
  split.
  - intros [e H]. unfold adcget_unmarshal in H. both H; [|stop H; apply agl_type; refusal]. both H; [|stop H; apply agl_type; refusal].
    both H; [|stop H; eapply agl_ident; refusal]. both H; [|stop H; eapply agl_ident; refusal].
    both H; [|stop H; eapply agl_no_start; try eassumption; intros I'; apply in_split in I' as (x & y & ->); destruct (cut " " (x ++ " "%byte :: y)) as [[? ?]|] eqn:C; [apply first_cut in C; eapply H0, C|apply cut_none in C; apply C, in_elt]].
    both H; [|stop H; eapply agl_start; eassumption]. cbv zeta in H.
    destruct (cut_or_all _) as [len r] eqn:C. destruct (cut_or_all_split _ _ _ C) as (fs & Sp & R).
    assert (F : forall x y, x = mk_adcget a a0 a1 y (ag_compressed o) (ag_downloaded o) -> (len = B "-1" /\ y = (-1)%Z \/ exists n, uint_read len n /\ y = wrapped64 n) -> adcget_flags (length r) x r = (m, Err e) -> adcget_left dec o data m).
    { intros x y -> Ly K. destruct (proj1 (flags_left _ _ _ _ fs m C Sp) (ex_intro _ e K)) as [e' K']. destruct (proj1 (flag_list_err fs _ m) (ex_intro _ e' K')) as (done & q & rest & Ef & G & N).
      apply flag_list_ok in G as (z & db & Fl & ->). setters. eapply agl_flag; eassumption. }
    destruct (bytes_eqb_spec len (B "-1")) as [El|Nl]; [eapply F; [|left; auto|exact H]; reflexivity|].
    both H; [|stop H; eapply agl_length; eassumption]. eapply F; [|right; eauto|exact H]. rewrite <- (wrapped_iff len) by assumption. reflexivity.
  - intros H; destruct H; unfold adcget_unmarshal; try solve [follow].
    + repeat back_step. apply cut_none in H3. rewrite H3. setters. eauto.
    + repeat back_step. destruct (cut_or_all r3) as [l' r'] eqn:C. destruct (cut_or_all_split _ _ _ C) as (fs' & Sp' & R).
      apply (split_on_byte " ") in H5, Sp'. rewrite <- Sp' in H5. injection H5 as -> ->. destruct (bytes_eqb_spec l' (B "-1")) as [El|_]; [contradiction|]. follow.
    + repeat back_step. destruct (cut_or_all r3) as [l' r'] eqn:C. assert (G : forall x, exists e, adcget_flags (length r') (mk_adcget typ ident start x (ag_compressed o) (ag_downloaded o)) r' =
        (mk_adcget typ ident start x (ag_compressed o || z) (match db with Some n => Some n | None => ag_downloaded o end), Err e)).
      { intros y. assert (l' = l) as -> by (destruct (cut_or_all_split _ _ _ C) as (fs' & Sp' & R); apply (split_on_byte " ") in H5, Sp'; rewrite <- Sp' in H5; now injection H5 as -> _).
        apply (flags_left _ r3 _ l fs); [exact C|exact H5|]. apply flag_list_err. exists done, x, rest. split; [exact H7|]. split; [|assumption]. apply flag_list_ok. exists z, db. split; [assumption|reflexivity]. }
      destruct (cut_or_all_split _ _ _ C) as (fs' & Sp' & R). apply (split_on_byte " ") in H5, Sp'. rewrite <- Sp' in H5. injection H5 as <- <-.
      destruct H6 as [[-> ->]|(n & U & ->)].
      * change (bytes_eqb (B "-1") (B "-1")) with true. cbv iota. apply G.
      * destruct (bytes_eqb_spec l (B "-1")) as [->|_]; [exfalso; apply uint_iff in U; vm_compute in U; discriminate|]. rewrite (proj2 (uint_iff l n) U), (wrapped_iff l n U). apply G.
Qed.
Lemma adcsnd_lefts dec o data m : (exists e, adcsnd_unmarshal dec o data = (m, Err e)) <-> adcsnd_left dec o data m.
Proof.
  split.
  - intros [e H]. unfold adcsnd_unmarshal in H. both H; [|stop H; apply asl_type; refusal]. both H; [|stop H; apply asl_type; refusal].
    both H; [|stop H; eapply asl_ident; refusal]. both H; [|stop H; eapply asl_ident; refusal].
    both H; [|stop H; eapply asl_no_start; try eassumption; intros I'; apply in_split in I' as (x & y & ->); destruct (cut " " (x ++ " "%byte :: y)) as [[? ?]|] eqn:C; [apply first_cut in C; eapply H0, C|apply cut_none in C; apply C, in_elt]].
    both H; [|stop H; eapply asl_start; eassumption]. cbv zeta in H.
    destruct (cut_or_all _) as [len r] eqn:C. destruct (cut_or_all_split _ _ _ C) as (fs & Sp & R).
    both H; [|stop H; eapply asl_length; eassumption]. destruct r as [|c r]; [discriminate|]. destruct (bytes_eqb_spec (c :: r) (B "ZL1")) as [Er|Nr]; [discriminate|]. stop H.
    assert (F : first (B " ") l4 len (c :: r)) by (unfold cut_or_all in C; destruct (cut " " l4) as [[x y]|] eqn:C'; [injection C as <- <-; now apply first_cut in C'|discriminate]).
    eapply asl_flag; try eassumption. discriminate.
  - intros H; destruct H; unfold adcsnd_unmarshal; try solve [follow].
    + repeat back_step. apply cut_none in H3. rewrite H3. setters. eauto.
    + repeat back_step. destruct (cut_or_all r3) as [l' r'] eqn:C. destruct (cut_or_all_split _ _ _ C) as (fs' & Sp' & R).
      apply (split_on_byte " ") in H5, Sp'. rewrite <- Sp' in H5. injection H5 as -> ->. follow.
    + unfold cut_or_all. repeat back_step. destruct x as [|c x]; [contradiction|]. destruct (bytes_eqb_spec (c :: x) (B "ZL1")) as [E|_]; [contradiction|]. setters. eauto.
Qed.
Lemma direction_lefts o data m : (exists e, direction_unmarshal o data = (m, Err e)) <-> direction_left o data m.
Proof.
  assert (St : forall p x, ~ In " "%byte p -> first (B " ") (p ++ B " " ++ x) p x) by (intros p x N; apply (first_cut " "); now apply cut_app).
  assert (Nu : ~ In " "%byte (B "Upload")) by (apply contains_byte_false; reflexivity). assert (Nd : ~ In " "%byte (B "Download")) by (apply contains_byte_false; reflexivity).
  split.
  - intros [e H]. unfold direction_unmarshal in H. both H.
    2: { stop H. apply dl_dir; intros [r ->]; [apply (H0 (B "Upload") r), (St (B "Upload")), Nu|apply (H0 (B "Download") r), (St (B "Download")), Nd]. }
    assert (G : forall up x, (match parse_uint_trim x with
        | Err _ => (set_di_upload o up, Err (EText "Direction: unable to parse field 2"))
        | Panic => (set_di_upload o up, Panic)
        | Ok n => if ((n <? 1) || (32767 <? n))%N then (set_di_upload o up, Err (EText "Direction: number outside range"))
                  else (set_di_number (set_di_upload o up) n, Ok tt) end) = (m, Err e) -> (forall n, uint_read x n -> ~ (1 <= n <= 32767)%N) /\ m = mk_direction up (di_number o)).
    { clear. intros up x H. both H.
      - destruct ((a <? 1) || (32767 <? a))%N eqn:L; [|discriminate]. stop H. split; [|reflexivity]. intros n U R. apply uint_iff in U, E. rewrite E in U. injection U as <-.
        apply orb_true_iff in L as [L|L]; apply N.ltb_lt in L; lia.
      - stop H. split; [|reflexivity]. intros n U. exfalso. now apply (E n). }
    destruct (bytes_eqb_spec l (B "Download")) as [->|N1].
    + apply G in H as (U & ->). eapply (dl_number o data false); [|exact U]. apply E.
    + destruct (bytes_eqb_spec l (B "Upload")) as [->|N2]; [apply G in H as (U & ->); eapply (dl_number o data true); [|exact U]; apply E|]. stop H.
      apply dl_dir; intros [r ->]; [apply N2|apply N1].
      * now destruct (first_same _ _ _ _ _ _ E (St (B "Upload") r Nu)).
      * now destruct (first_same _ _ _ _ _ _ E (St (B "Download") r Nd)).
  - intros [N1 N2|up x -> N].
    + unfold direction_unmarshal. destruct (cut " " data) as [[d r]|] eqn:C; [|eauto]. apply cut_spec in C as [-> _]. cbv zeta. destruct (bytes_eqb_spec d (B "Download")) as [->|_]; [exfalso; apply N2; now exists r|].
      destruct (bytes_eqb_spec d (B "Upload")) as [->|_]; [exfalso; apply N1; now exists r|]. eauto.
    + unfold direction_unmarshal. assert (F : first (B " ") ((if up then B "Upload" else B "Download") ++ B " " ++ x) (if up then B "Upload" else B "Download") x) by (apply St; destruct up; assumption).
      apply (first_cut " ") in F. rewrite F. cbv zeta.
      assert (G : exists e, (match parse_uint_trim x with
        | Err _ => (set_di_upload o up, Err (EText "Direction: unable to parse field 2"))
        | Panic => (set_di_upload o up, Panic)
        | Ok n => if ((n <? 1) || (32767 <? n))%N then (set_di_upload o up, Err (EText "Direction: number outside range"))
                  else (set_di_number (set_di_upload o up) n, Ok tt) end) = (mk_direction up (di_number o), Err e)).
      { destruct (parse_uint_trim x) as [n|e'|] eqn:U; [|setters; eauto|now apply parse_uint_trim_total in U]. apply uint_iff, N in U. destruct ((n <? 1) || (32767 <? n))%N eqn:L; [setters; eauto|]. exfalso. apply U.
        apply orb_false_iff in L as [L1 L2]. apply N.ltb_ge in L1, L2. lia. }
      destruct up; exact G.
Qed.

(** ** Hub information *)
Definition field_bad dec (i : nat) (f : bytes) : Prop := In i [0; 2; 8; 9] /\ refuses (str_read dec) f \/ In i [3; 4; 5; 6] /\ refuses int_read f.
Lemma field_bad_iff dec n i m f m' : (exists e, hubinfo_field dec n i m f = (m', Err e)) <-> m' = m /\ field_bad dec i f.
Proof.
  unfold field_bad. split.
  - intros [e H]. destruct i as [|[|[|[|[|[|[|[|[|[|[|i]]]]]]]]]]]; cbn [hubinfo_field] in H;
      try (both H; [discriminate|injection H as <- _; split; [reflexivity|]; (left; split; [cbn; tauto|assumption]) || (right; split; [cbn; tauto|assumption])]); try discriminate.
    destruct (last_cut " " f) as [[? ?]|]; discriminate.
  - intros [-> [[Hi N]|[Hi N]]]; cbn in Hi; repeat destruct Hi as [<-|Hi]; try contradiction; cbn [hubinfo_field]; no_step; eauto.
Qed.
Lemma hubinfo_err dec n i m f r m' : (exists e, hubinfo_fields dec n i m (f :: r) = (m', Err e)) <->
  m' = m /\ field_bad dec i f \/ exists m1, hubinfo_field dec n i m f = (m1, Ok tt) /\ exists e, hubinfo_fields dec n (S i) m1 r = (m', Err e).
Proof.
  rewrite <- (field_bad_iff dec n i m f m'). cbn [hubinfo_fields]. destruct (hubinfo_field dec n i m f) as [m1 [[]|e|]]; split.
  - intros H. right. exists m1. auto.
  - intros [[e H]|(x & [= <-] & H)]; [discriminate|exact H].
  - intros [e' [= <- <-]]. left. eauto.
  - intros [[e' [= -> ->]]|(x & [=] & H)]; eauto.
  - intros [e [=]].
  - intros [[e [=]]|(x & [=] & H)].
Qed.
Lemma hubinfo_any_n dec n n' fs : forall i m, i + length fs <= 10 -> hubinfo_fields dec n i m fs = hubinfo_fields dec n' i m fs.
Proof.
  induction fs as [|f fs IH]; intros i m L; [reflexivity|]. cbn [hubinfo_fields length] in *. assert (E : hubinfo_field dec n i m f = hubinfo_field dec n' i m f).
  { do 10 (destruct i as [|i]; [reflexivity|]). lia. }
  rewrite E. destruct (hubinfo_field dec n' i m f) as [m1 [[]|e|]]; [|reflexivity..]. apply IH. lia.
Qed.
Lemma hubinfo_prefix dec n f rest m1 pre : forall i m, hubinfo_fields dec n i m pre = (m1, Ok tt) -> field_bad dec (i + length pre) f ->
  exists e, hubinfo_fields dec n i m (pre ++ f :: rest) = (m1, Err e).
Proof.
  induction pre as [|g pre IH]; intros i m H Bd; cbn [app].
  - cbn in H. injection H as <-. rewrite Nat.add_0_r in Bd. apply hubinfo_err. auto.
  - apply hubinfo_step in H as (m2 & F & H). apply hubinfo_err. right. exists m2. split; [exact F|]. apply IH; [exact H|]. cbn [length] in Bd. now replace (S i + length pre) with (i + S (length pre)) by lia.
Qed.
Ltac here SM k := match goal with Bad : field_bad _ _ _ |- hubinfo_left ?d ?o ?s _ => eapply (hil d o s _ k); [exact SM|reflexivity|exact Bad|unfold field; cbn; first [reflexivity|eassumption]..] end.
Ltac hub_flat H := cbv beta iota zeta delta [set_hi_name set_hi_host set_hi_desc set_hi_i1 set_hi_i2 set_hi_i3 set_hi_i4
    set_hi_soft set_hi_vers set_hi_owner set_hi_state set_hi_encoding hi_name hi_host hi_desc hi_i1 hi_i2
    hi_i3 hi_i4 hi_soft hi_vers hi_owner hi_state hi_encoding] in H.
Lemma hubinfo_sound dec o data m : (exists e, hubinfo_unmarshal dec o data = (m, Err e)) -> hubinfo_left dec o data m.
Proof.
  unfold hubinfo_unmarshal. destruct o as [o0 o1 o2 o3 o4 o5 o6 o7 o8 o9 o10 o11].
  intros H. cbv zeta in H. pose proof (proj2 (split_max_iff "$" 12 data _) eq_refl) as SM. set (fs := splitn_byte 13 "$" data) in *. clearbody fs.
    do 7 (destruct fs as [|? fs]; [destruct H as [? [=]]|]; apply hubinfo_err in H as [[-> Bad]|(? & F & H)];
      [match type of Bad with field_bad _ ?k _ => here SM k end|]; apply hubinfo_over_iff in F; unfold field_over, field_values in F; hub_flat F; first [destruct F as (? & ? & ->)|subst]).
    do 1 (destruct fs as [|? fs]; [destruct H as [? [=]]|]; apply hubinfo_err in H as [[-> Bad]|(? & F & H)];
      [match type of Bad with field_bad _ ?k _ => here SM k end|]; apply hubinfo_over_iff in F; unfold field_over, field_values in F; hub_flat F; destruct F as (? & ? & ? & ->)).
    do 2 (destruct fs as [|? fs]; [destruct H as [? [=]]|]; apply hubinfo_err in H as [[-> Bad]|(? & F & H)];
      [match type of Bad with field_bad _ ?k _ => here SM k end|]; cbn [hubinfo_field] in F; head_step F; hub_flat F; injection F as <-).
    destruct fs as [|f fs]; [destruct H as [? [=]]|]. apply hubinfo_err in H as [[-> [[K _]|[K _]]]|(m1 & F & e & H)]; [cbn in K; lia..|]. rewrite hubinfo_late in H by lia. discriminate.
Qed.
Lemma hubinfo_complete dec o data m : hubinfo_left dec o data m -> exists e, hubinfo_unmarshal dec o data = (m, Err e).
Proof.
  unfold hubinfo_unmarshal. destruct o as [o0 o1 o2 o3 o4 o5 o6 o7 o8 o9 o10 o11].
  intros [fs k f name host desc i1 i2 i3 i4 soft vers owner SM K Bd H0 H1 H2 H3 H4 H5 H6 H7 H8].
    assert (Lk : k <= 9) by (destruct Bd as [[Hk _]|[Hk _]]; cbn [In] in Hk; lia).
    assert (Ef : fs = firstn k fs ++ f :: skipn (S k) fs).
    { clear - K. revert fs K. induction k as [|k IH]; intros [|g fs] K; try discriminate; [cbn in K; injection K as ->; reflexivity|]. cbn [firstn skipn app]. f_equal. now apply IH. }
    assert (Lf : length (firstn k fs) = k) by (rewrite firstn_length; assert (k < length fs) by (apply nth_error_Some; congruence); lia).
    pose proof (proj1 (split_max_iff "$" 12 data fs) SM) as Es. cbv zeta. rewrite <- Es. set (n := length fs). clearbody n. rewrite Ef. apply hubinfo_prefix; [|rewrite Lf; exact Bd].
    destruct (Nat.eq_dec k 0) as [->|Nk].
    { cbn in H0, H1, H2, H3, H4, H5, H6, H7, H8. injection H7 as -> ->. subst. reflexivity. }
    set (pre := firstn k fs) in *. rewrite (hubinfo_any_n dec _ (length pre)) by lia.
    assert (SP : split_max "$" 13 (sep_by (B "$") pre) pre).
    { destruct SM as (a & b & Ea & _ & F & _). assert (Ep : exists x y, pre = x ++ [y]) by (destruct (exists_last (l := pre)) as (x & y & X); [intros X; rewrite X in Lf; cbn in Lf; lia|eauto]).
      destruct Ep as (x & y & Ep). assert (Fp : Forall (fun x => ~ In "$"%byte x) pre).
      { assert (Ha : pre = firstn k a). { unfold pre. rewrite Ea, firstn_app. assert (k <= length a) by (assert (k < length fs) by (apply nth_error_Some; congruence); rewrite Ea, app_length in *; cbn in *; lia). replace (k - length a) with 0 by lia. now rewrite app_nil_r. }
        rewrite Ha. rewrite Forall_forall in *. intros z Hz. apply F. rewrite <- (firstn_skipn k a). apply in_or_app. auto. }
      exists x, y. rewrite Ep in Fp. apply Forall_app in Fp as [Fx Fy]. apply Forall_inv in Fy. split; [exact Ep|]. split; [reflexivity|]. split; [exact Fx|]. split; [lia|auto]. }
    clearbody pre. assert (X : hubinfo_over dec (mk_hubinfo o0 o1 o2 o3 o4 o5 o6 o7 o8 o9 o10 o11) (sep_by (B "$") pre) (mk_hubinfo name host desc i1 i2 i3 i4 soft vers owner o10 o11)).
    { apply (hio dec _ _ pre); [exact SP|exact H0|exact H1|exact H2|exact H3|exact H4|exact H5|exact H6|exact H7|exact H8| |]; [unfold field; now rewrite (proj2 (nth_error_None pre 9)) by lia|]. destruct (length pre <? 12); [unfold field; now rewrite (proj2 (nth_error_None pre 10)) by lia|reflexivity]. }
    apply hubinfo_overs in X. unfold hubinfo_unmarshal in X. apply (split_max_iff "$" 12) in SP. rewrite <- SP in X. exact X.
Qed.
Lemma hubinfo_lefts dec o data m : (exists e, hubinfo_unmarshal dec o data = (m, Err e)) <-> hubinfo_left dec o data m.
Proof. split; [apply hubinfo_sound|apply hubinfo_complete]. Qed.

(** ** Searches *)
Lemma asked_iff r f0 f1 f2 f3 f4 : splitn_byte 5 "?" r = [f0; f1; f2; f3; f4] <-> asked r f0 f1 f2 f3 f4.
Proof.
  unfold asked. split.
  - intros H. symmetry in H. apply (split_max_iff "?" 4) in H as (a & b & Ea & -> & F & _). change [f0; f1; f2; f3; f4] with ([f0; f1; f2; f3] ++ [f4]) in Ea. apply app_inj_tail in Ea as [<- _]. split; [reflexivity|exact F].
  - intros [-> F]. symmetry. apply (split_max_iff "?" 4). exists [f0; f1; f2; f3], f4. split; [reflexivity|]. split; [reflexivity|]. split; [exact F|]. cbn. split; lia.
Qed.
Lemma dollar s : without_suffix (B "$") s (if last_is "$" s then drop_last s else s).
Proof.
  destruct (last_is "$" s) eqn:L; [left; now apply last_is_true|right]. apply last_is_false in L. split; [|reflexivity]. intros a E. apply L. now exists a.
Qed.
Lemma dollar_iff s s' : without_suffix (B "$") s s' <-> s' = if last_is "$" s then drop_last s else s.
Proof.
  pose proof (dollar s) as D. apply without_suffix_iff in D; [|discriminate]. rewrite D. apply without_suffix_iff. discriminate.
Qed.
Lemma what_left dec x f m : (exists e, search_what dec x f = (m, Err e)) <->
  m = x /\ (if (se_dtype x =? 9)%N then ~ starts_with (B "TTH:") f else refuses (str_read dec) f) \/
  se_dtype x = 9%N /\ exists s s' h, f = B "TTH:" ++ s /\ without_suffix (B "$") s s' /\ refuses hash_read s' /\ ~ starts_with_symbols 40 (unbroken s') /\
    hash_left s' (repeat x00 24) h /\ m = set_se_tth x (Some h).
Proof.
  unfold search_what. change data_tth with 9%N. destruct (N.eqb_spec (se_dtype x) 9) as [E|N].
  - destruct (has_prefix (B "TTH:") f) eqn:P.
    + apply has_prefix_spec in P as [s ->]. change (skipn 4 (B "TTH:" ++ s)) with s. cbv zeta. set (s' := if last_is "$" s then drop_last s else s). assert (D : without_suffix (B "$") s s') by apply dollar. split.
      * intros [e H]. right. split; [exact E|]. destruct (new_tth s') as [h r] eqn:T. injection H as <- ->. exists s, s', h. split; [reflexivity|]. split; [exact D|].
        assert (R : refuses hash_read s') by (intros y Y; apply tth_iff in Y; rewrite T in Y; discriminate). assert (C : ~ starts_with_symbols 40 (unbroken s')) by (intros Y; apply tth_panics in Y; rewrite T in Y; discriminate).
        split; [exact R|]. split; [exact C|]. split; [|reflexivity]. apply fresh_hash; eauto.
      * intros [[_ Ns]|(_ & s2 & s2' & h & Es & D2 & R & C & L & ->)]; [exfalso; apply Ns; now exists s|]. apply app_inv_head in Es as <-. apply dollar_iff in D2. fold s' in D2. subst s2'.
        destruct (proj2 (fresh_hash s' h R C) L) as [e T]. rewrite T. eauto.
    + split.
      * intros [e [= <- _]]. left. split; [reflexivity|]. intros X. apply has_prefix_spec in X. congruence.
      * intros [[-> _]|(_ & s & s' & h & -> & _)]; [eauto|]. rewrite has_prefix_app in P. discriminate.
  - split.
    + intros [e H]. both H; [discriminate|]. injection H as <- _. auto.
    + intros [[-> R]|[X _]]; [|contradiction]. no_step. eauto.
Qed.
Lemma size_iff x f2 m : search_size x f2 = (m, Ok tt) <-> exists rs' size, size_over x (se_restricted x) f2 rs' size /\ m = set_se_size (set_se_restricted x rs') size.
Proof.
  unfold search_size, size_over. destruct f2 as [|c t].
  - split.
    + intros [= <-]. exists (se_restricted x), (se_size x). split; [auto|]. now destruct x.
    + intros (rs' & size & [(_ & -> & ->)|[N _]] & ->); [|contradiction]. now destruct x.
  - destruct (beq_spec c "-") as [->|N].
    + split.
      * intros H. both H; [|discriminate]. injection H as <-. exists false, 0%N. split; [|reflexivity]. right. split; [discriminate|]. apply (szr_negative _ t a E).
      * intros (rs' & size & [[X _]|[_ H]] & ->); [discriminate|]. inversion H as [|t' n U E|s n Ns U E]; subst; [|exfalso; apply Ns; now exists t]. apply uint_iff in U. rewrite U. reflexivity.
    + split.
      * intros H. both H; [|discriminate]. injection H as <-. exists (se_restricted x), a. split; [|now destruct x]. right. split; [discriminate|]. apply szr_number; [|exact E]. intros [t' X]. now injection X as -> _.
      * intros (rs' & size & [[X _]|[_ H]] & ->); [discriminate|]. inversion H as [|t' n U E|s n Ns U E]; subst; [contradiction|]. apply uint_iff in U. rewrite U. now destruct x.
Qed.
Lemma size_no x f2 m : (exists e, search_size x f2 = (m, Err e)) <-> (forall rs' size, ~ size_over x (se_restricted x) f2 rs' size) /\
  m = set_se_size x (match f2 with c :: _ => if beq c "-" then se_size x else 0%N | [] => 0%N end).
Proof.
  split.
  - intros [e H]. split.
    + intros rs' size X. assert (Y : search_size x f2 = (set_se_size (set_se_restricted x rs') size, Ok tt)) by (apply size_iff; eauto). congruence.
    + unfold search_size in H. destruct f2 as [|c t]; [discriminate|]. destruct (beq c "-"); (both H; [discriminate|]); injection H as <- _; [now destruct x|reflexivity].
  - intros [N ->]. destruct (search_size x f2) as [m [[]|e|]] eqn:H.
    + apply size_iff in H as (rs' & size & X & _). exfalso. eapply N, X.
    + exists e. f_equal. unfold search_size in H. destruct f2 as [|c t]; [discriminate|]. destruct (beq c "-"); (both H; [discriminate|]); injection H as <- _; [now destruct x|reflexivity].
    + exfalso. unfold search_size in H. destruct f2 as [|c t]; [discriminate|]. destruct (beq c "-"); (destruct (parse_uint_trim _) eqn:U in H; [discriminate|discriminate|now apply parse_uint_trim_total in U]).
Qed.
Lemma flag_no f : (forall b, f <> flag_text b) <-> exists e, unmarshal_flag f = Err e.
Proof.
  split.
  - intros N. destruct (unmarshal_flag f) as [b|e|] eqn:E; [apply flag_iff in E; exfalso; now apply (N b)|eauto|]. unfold unmarshal_flag in E. destruct f as [|c [|]]; try discriminate. destruct (beq c "T"); [discriminate|]. destruct (beq c "F"); discriminate.
  - intros [e E] b X. apply flag_iff in X. congruence.
Qed.
Lemma flag_back b : unmarshal_flag (flag_text b) = Ok b.
Proof. now apply flag_iff. Qed.
Lemma search_lefts dec o data m : (exists e, search_unmarshal dec o data = (m, Err e)) <-> search_left dec o data m.
Proof.
  split.
  - intros [e H]. unfold search_unmarshal in H. both H; [|stop H; apply sl_who; intros who r addr user F; exfalso; now apply (H0 who r)].
    assert (G : forall addr user, asker dec o l addr user -> search_string dec (mk_search addr user (se_restricted o) (se_ismax o) (se_size o) (se_dtype o) (se_pattern o) (se_tth o)) l0 = (m, Err e) -> search_left dec o data m).
    { clear H. intros addr user A H. unfold search_string in H.
      destruct (splitn_byte 5 "?" l0) as [|f0 [|f1 [|f2 [|f3 [|f4 [|f5 fs]]]]]] eqn:Sp;
        try (stop H; eapply sl_fields; [exact E|exact A|]; intros g0 g1 g2 g3 g4 X; apply asked_iff in X; congruence).
      apply asked_iff in Sp.
      destruct (unmarshal_flag f0) as [rs|e'|] eqn:F0; [apply flag_iff in F0; subst f0|stop H; eapply sl_restricted; [exact E|exact A|exact Sp|]; apply flag_no; eauto|discriminate].
      cbv zeta in H. destruct (unmarshal_flag f1) as [mx|e'|] eqn:F1; [apply flag_iff in F1; subst f1|stop H; eapply sl_max; [exact E|exact A|exact Sp|]; apply flag_no; eauto|discriminate].
      cbv beta iota zeta delta [set_se_restricted set_se_ismax se_address se_user se_restricted se_ismax se_size se_dtype se_pattern se_tth] in H. fold (se_size o) (se_dtype o) (se_pattern o) (se_tth o) in H.
      destruct (search_size _ f2) as [m1 [[]|e'|]] eqn:Z.
      - apply size_iff in Z as (rs' & size & Z & ->). cbn [se_restricted] in Z.
        both H; [|stop H; eapply (sl_type dec o data _ _ _ _ _ _ rs' size); eassumption].
        destruct (proj1 (what_left _ _ _ _) (ex_intro _ e H)) as [[-> W]|(T9 & s & s' & h & -> & D & R & C & L & ->)]; setters.
        + eapply (sl_text dec o data _ _ _ _ rs mx rs' size); eassumption.
        + cbn in T9. subst a. eapply (sl_hash dec o data _ _ _ _ rs mx rs' size); eassumption.
      - injection H as <- _. destruct (proj1 (size_no _ _ _) (ex_intro _ e' Z)) as [N ->]. setters. eapply (sl_size dec o data _ _ _ _ rs mx f2); eassumption.
      - discriminate. }
    destruct (has_prefix (B "Hub:") l) eqn:P.
    + apply has_prefix_spec in P as [n ->]. change (skipn 4 (B "Hub:" ++ n)) with n in H. both H.
      * apply (G (se_address o) a); [left; exists n; auto|exact H].
      * stop H. apply sl_who. intros who r addr user F [(n' & -> & X & _)|(X & _)]; destruct (first_same _ _ _ _ _ _ E F) as [Ew _].
        -- apply app_inv_head in Ew as <-. now apply (E0 user).
        -- apply X. rewrite <- Ew. now exists n.
    + apply (G l (se_user o)); [|exact H]. right. split; [|auto]. intros X. apply has_prefix_spec in X. congruence.
  - intros H.
    assert (G : forall who r addr user, first (B " ") data who r -> asker dec o who addr user ->
      search_unmarshal dec o data = search_string dec (mk_search addr user (se_restricted o) (se_ismax o) (se_size o) (se_dtype o) (se_pattern o) (se_tth o)) r).
    { intros who r addr user F A. unfold search_unmarshal. apply (first_cut " ") in F. rewrite F. destruct A as [(n & -> & X & ->)|(N & -> & ->)].
      - rewrite has_prefix_app. change (skipn 4 (B "Hub:" ++ n)) with n. apply name_iff in X. rewrite X. reflexivity.
      - destruct (has_prefix (B "Hub:") who) eqn:P; [apply has_prefix_spec in P; contradiction|]. reflexivity. }
    assert (K : forall r x f0 f1 f2 f3 f4, asked r f0 f1 f2 f3 f4 -> search_string dec x r =
      (do b <- unmarshal_flag f0 keeping set_se_restricted x false; do c <- unmarshal_flag f1 keeping set_se_ismax (set_se_restricted x b) false;
       let '(m, e) := search_size (set_se_ismax (set_se_restricted x b) c) f2 in do u <- e keeping m; do t <- parse_uint_trim f3 keeping m; search_what dec (set_se_dtype m t) f4)).
    { intros r x f0 f1 f2 f3 f4 A. apply asked_iff in A. unfold search_string. rewrite A. reflexivity. }
    assert (Z : forall x f2 rs' size, size_over x (se_restricted x) f2 rs' size -> search_size x f2 = (set_se_size (set_se_restricted x rs') size, Ok tt)) by (intros; apply size_iff; eauto).
    destruct H as [N|who r addr user F A N|who r addr user f0 f1 f2 f3 f4 F A As N|who r addr user rs f1 f2 f3 f4 F A As N|who r addr user rs mx f2 f3 f4 F A As N
      |who r addr user rs mx rs' size f2 f3 f4 F A As Sz N|who r addr user rs mx rs' size f2 f3 f4 typ F A As Sz U N|who r addr user rs mx rs' size f2 f3 s s' h F A As Sz U D R C L].
    + unfold search_unmarshal. destruct (cut " " data) as [[who r]|] eqn:C; [|eauto]. apply first_cut in C. destruct (has_prefix (B "Hub:") who) eqn:P.
      * apply has_prefix_spec in P as [n ->]. change (skipn 4 (B "Hub:" ++ n)) with n. destruct (name_unmarshal dec n) as [x|e|] eqn:X; [|eauto|now apply name_unmarshal_total in X].
        exfalso. apply name_iff in X. apply (N _ r (se_address o) x C). left. eauto.
      * exfalso. apply (N _ r who (se_user o) C). right. split; [|auto]. intros X. apply has_prefix_spec in X. congruence.
    + rewrite (G _ _ _ _ F A). unfold search_string. destruct (splitn_byte 5 "?" r) as [|f0 [|f1 [|f2 [|f3 [|f4 [|f5 fs]]]]]] eqn:Sp; eauto. apply asked_iff in Sp. exfalso. eapply N, Sp.
    + rewrite (G _ _ _ _ F A), (K _ _ _ _ _ _ _ As). apply flag_no in N as [e ->]. eexists; reflexivity.
    + rewrite (G _ _ _ _ F A), (K _ _ _ _ _ _ _ As), flag_back. apply flag_no in N as [e ->]. eexists; reflexivity.
    + rewrite (G _ _ _ _ F A), (K _ _ _ _ _ _ _ As), !flag_back. match goal with |- context [search_size ?x f2] => destruct (proj2 (size_no x f2 _) (conj N eq_refl)) as [e E] end. rewrite E. setters. eexists; reflexivity.
    + rewrite (G _ _ _ _ F A), (K _ _ _ _ _ _ _ As), !flag_back. match goal with |- context [search_size ?x f2] => rewrite (Z x f2 rs' size Sz) end. cbv iota beta. no_step. setters. eexists; reflexivity.
    + rewrite (G _ _ _ _ F A), (K _ _ _ _ _ _ _ As), !flag_back. match goal with |- context [search_size ?x f2] => rewrite (Z x f2 rs' size Sz) end. cbv iota beta. back_step. apply what_left. left. split; [reflexivity|exact N].
    + rewrite (G _ _ _ _ F A), (K _ _ _ _ _ _ _ As), !flag_back. match goal with |- context [search_size ?x f2] => rewrite (Z x f2 rs' size Sz) end. cbv iota beta. back_step. apply what_left. right. split; [reflexivity|]. exists s, s', h. auto 10.
Qed.

(** ** Results *)
Lemma cut39 (p d : bytes) : p <> [] -> has_prefix p (skipn 39 d) = true -> exists t rest, d = t ++ p ++ rest /\ length t = 39.
Proof.
  intros Np H. apply has_prefix_spec in H as [rest E]. exists (firstn 39 d), rest. split; [now rewrite <- E, firstn_skipn|]. apply firstn_length_le.
  assert (L : length (skipn 39 d) = length (p ++ rest)) by now rewrite E. rewrite skipn_length, app_length in L. destruct p; [contradiction|]. cbn [length] in L. lia.
Qed.
Lemma at39 (t x : bytes) : length t = 39 -> skipn 39 (t ++ x) = x /\ firstn 39 (t ++ x) = t.
Proof. intros <-. now rewrite skipn_app_exact, firstn_app_exact. Qed.
Lemma fresh_short t : length t = 39 -> ~ starts_with_symbols 40 (unbroken t).
Proof.
  intros L X. apply tth_panics in X. unfold new_tth in X. change hash_size with 24 in X. pose proof (short_hash (repeat x00 24) t eq_refl) as P. destruct (hash_unmarshal_base32 (repeat x00 24) t) as [r h]. cbn in *. apply P; [lia|exact X].
Qed.
Lemma no_first c s : ~ In c s <-> cut c s = None.
Proof. symmetry. apply cut_none. Qed.
Lemma tail_left dec x s m : (exists e, sr_tail dec x s = (m, Err e)) <->
  m = x /\ ~ In ")"%byte s \/ exists addr r, first (B ")") s addr r /\ refuses (target_read dec) r /\ m = set_sr_hubaddr x addr.
Proof.
  assert (S1 : forall e, sr_tail dec x s = (m, Err e) -> forall addr r, first (B ")") s addr r -> refuses (target_read dec) r).
  { intros e H addr r F to T. assert (Y : exists m', sr_tail dec x s = (m', Ok tt)) by (eexists; apply tail_over; exists addr, r, to; auto). destruct Y as [m' Y]. congruence. }
  split.
  - intros [e H]. specialize (S1 e H). unfold sr_tail in H. both H.
    + right. exists l, l0. split; [exact E|]. split; [eapply S1, E|]. destruct l0 as [|c [|c' l0]]; [discriminate|now injection H as <- _|]. destruct (beq c sr_sep); [|now injection H as <- _]. both H; [discriminate|now injection H as <- _].
    + left. injection H as <- _. split; [reflexivity|]. intros X. apply in_split in X as (a & b & ->). destruct (cut ")" (a ++ ")"%byte :: b)) as [[? ?]|] eqn:C; [apply first_cut in C; eapply H0, C|apply cut_none in C; apply C, in_elt].
  - intros [[-> N]|(addr & r & F & R & ->)].
    + unfold sr_tail. apply no_first in N. rewrite N. eauto.
    + destruct (sr_tail dec x s) as [m' [[]|e|]] eqn:T.
      * apply tail_over in T as (addr' & r' & to & F' & T & _). destruct (first_same _ _ _ _ _ _ F F') as [<- <-]. exfalso. eapply R, T.
      * exists e. f_equal. unfold sr_tail in T. apply (first_cut ")") in F. rewrite F in T. cbv zeta in T. destruct r as [|c [|c' l0]]; [discriminate|now injection T as <- _|]. destruct (beq c sr_sep); [|now injection T as <- _]. both T; [discriminate|now injection T as <- _].
      * exfalso. unfold sr_tail in T. apply (first_cut ")") in F. rewrite F in T. cbv zeta in T. destruct r as [|c [|c' l0]]; try discriminate. destruct (beq c sr_sep); [|discriminate]. destruct (name_unmarshal dec (c' :: l0)) eqn:Nm; [discriminate..|now apply name_unmarshal_total in Nm].
Qed.
Definition with_hub (x : sr) (hub : bytes) (tth : option bytes) : sr :=
  mk_sr (sr_from x) (sr_path x) (sr_isdir x) (sr_size x) (sr_free x) (sr_total x) (match tth with Some _ => sr_hubname x | None => hub end) (match tth with Some h => Some h | None => sr_tth x end) (sr_hubaddr x) (sr_to x).
Lemma hub_lefts dec x s m : (exists e, sr_hub dec x s = (m, Err e)) <->
  (exists t, hub_left dec (sr_tth x) s t /\ m = set_sr_tth x t) \/
  exists hub tth rest, hub_read dec s hub tth rest /\ exists e, sr_tail dec (with_hub x hub tth) rest = (m, Err e).
Proof.
  unfold sr_hub. destruct (has_prefix (B "TTH:") s) eqn:P.
  - apply has_prefix_spec in P as [d ->]. change (skipn 4 (B "TTH:" ++ d)) with d. change base32_size with 39. cbv zeta.
    destruct (has_prefix (B " (") (skipn 39 d)) eqn:Q.
    + apply cut39 in Q as (t & rest & -> & L); [|discriminate]. destruct (at39 t (B " (" ++ rest) L) as [_ ->]. replace (skipn (39 + 2) (t ++ B " (" ++ rest)) with rest.
      2: { rewrite app_assoc, <- L. replace (length t + 2) with (length (t ++ B " (")) by (rewrite app_length; reflexivity). now rewrite skipn_app_exact. }
      assert (U : forall t' rest', t ++ B " (" ++ rest = t' ++ B " (" ++ rest' -> length t' = 39 -> t' = t /\ rest' = rest).
      { intros t' rest' E L'. assert (length t = length t') by lia. assert (E1 := f_equal (firstn 39) E). rewrite (proj2 (at39 t (B " (" ++ rest) L)), (proj2 (at39 t' (B " (" ++ rest') L')) in E1. subst t'. apply app_inv_head in E. now injection E as ->. }
      destruct (new_tth t) as [h r] eqn:T. split.
      * intros [e H]. destruct r as [[]|e'|].
        -- right. exists [], (Some h), rest. split; [apply hbr_hash; [exact L|now apply tth_iff]|]. exists e. exact H.
        -- left. injection H as <- _. exists (Some h). split; [|reflexivity]. assert (R : refuses hash_read t) by (intros y Y; apply tth_iff in Y; rewrite T in Y; discriminate).
           eapply hl_hash; [reflexivity|exact L|exact R|]. apply fresh_hash; [exact R|now apply fresh_short|eauto].
        -- discriminate.
      * intros [(th & HL & ->)|(hub & tth & rest' & HR & e & H)].
        -- inversion HL as [_ N|t' rest' h' E L' R Lf|N _]; subst.
           ++ exfalso. now apply (N t rest).
           ++ apply app_inv_head in E. apply U in E as [-> ->]; [|exact L']. apply fresh_hash in Lf as [e T']; [|exact R|now apply fresh_short]. rewrite T in T'. injection T' as -> ->. eauto.
           ++ exfalso. apply N. now exists (t ++ B " (" ++ rest).
        -- inversion HR as [t' h' rest2 L' Hh E|s n rest2 hub' N F Hs]; subst; [|exfalso; apply N; now exists (t ++ B " (" ++ rest)]. symmetry in E. apply U in E as [-> ->]; [|exact L'].
           apply tth_iff in Hh. rewrite T in Hh. injection Hh as -> ->. exists e. exact H.
    + assert (N : forall t rest, B "TTH:" ++ d = B "TTH:" ++ t ++ B " (" ++ rest -> length t <> 39).
      { intros t rest E L. apply app_inv_head in E. subst d. destruct (at39 t (B " (" ++ rest) L) as [X _]. rewrite X, has_prefix_app in Q. discriminate. }
      split.
      * intros [e [= <- _]]. left. exists (sr_tth x). split; [|now destruct x]. apply hl_short; [now exists d|exact N].
      * intros [(th & HL & ->)|(hub & tth & rest' & HR & e & H)].
        -- inversion HL as [_ _|t' rest' h' E L' R Lf|N' _]; subst; [exists (EText "invalid SR command: invalid TTH search"); now destruct x|exfalso; eapply N; eassumption|exfalso; apply N'; now exists d].
        -- inversion HR as [t' h' rest2 L' Hh E|s n rest2 hub' N' F Hs]; subst; [exfalso; eapply (N t' rest'); [reflexivity|exact L']|exfalso; apply N'; now exists d].
  - assert (Ns : ~ starts_with (B "TTH:") s) by (intros X; apply has_prefix_spec in X; congruence). split.
    + intros [e H]. both H.
      * both H.
        -- right. exists a, None, l0. split; [eapply hbr_name; eassumption|]. exists e. exact H.
        -- left. injection H as <- _. exists (sr_tth x). split; [apply hl_name; [exact Ns|refusal]|now destruct x].
      * left. injection H as <- _. exists (sr_tth x). split; [apply hl_name; [exact Ns|refusal]|now destruct x].
    + intros [(th & HL & ->)|(hub & tth & rest' & HR & e & H)].
      * inversion HL as [W _|t' rest' h' E L' R Lf|N' R]; subst; [contradiction|exfalso; apply Ns; now eexists|]. replace (set_sr_tth x (sr_tth x)) with x by now destruct x. no_step; [no_step|]; eauto.
      * inversion HR as [t' h' rest2 L' Hh E|s' n rest2 hub' N' F Hs]; subst; [exfalso; apply Ns; now eexists|]. repeat back_step. exists e. exact H.
Qed.
Lemma slots_left dec x p slots s m : (exists e, sr_slots dec x p slots s = (m, Err e)) <->
  refuses (str_read dec) p /\ m = x \/
  exists path, path_read dec p path /\
   (~ In "/"%byte slots /\ m = set_sr_path x path \/
    exists f t, first (B "/") slots f t /\
     (refuses int_read f /\ (exists z, int_left f z /\ m = set_sr_free (set_sr_path x path) z) \/
      exists free, int_read f free /\
       (refuses int_read t /\ (exists z, int_left t z /\ m = set_sr_total (set_sr_free (set_sr_path x path) free) z) \/
        exists total, int_read t total /\ exists e, sr_hub dec (set_sr_total (set_sr_free (set_sr_path x path) free) total) s = (m, Err e)))).
Proof.
  split.
  - intros [e H]. unfold sr_slots in H. both H; [|injection H as <- _; auto]. right. exists (split_byte "\" p). split; [split; [eauto|]; now apply (split_on_byte "\")|]. both H.
    2: { left. injection H as <- _. split; [|reflexivity]. intros X. apply in_split in X as (a' & b & ->). destruct (cut "/" (a' ++ "/"%byte :: b)) as [[? ?]|] eqn:C; [apply first_cut in C; eapply H0, C|apply cut_none in C; apply C, in_elt]. }
    right. exists l, l0. split; [exact E0|]. both H; [|left; split; [exact E1|]; injection H as <- _; exists (atoi_value l); split; [now apply int_left_iff|reflexivity]].
    right. exists a0. split; [exact E1|]. both H; [|left; split; [exact E2|]; injection H as <- _; exists (atoi_value l0); split; [now apply int_left_iff|reflexivity]].
    right. exists a1. split; [exact E2|]. exists e. exact H.
  - unfold sr_slots. intros [[R ->]|(path & [[u Hp] Sp] & D)]; [follow|]. repeat back_step. apply (split_on_byte "\") in Sp. subst path. destruct D as [[N ->]|(f & t & F & D)]; [apply no_first in N; rewrite N; eauto|].
    repeat back_step. destruct D as [[R (z & Lz & ->)]|(free & Hf & D)]; [apply int_left_iff in Lz; [|exact R]; rewrite Lz; no_step; eauto|].
    repeat back_step. destruct D as [[R (z & Lz & ->)]|(total & Ht & e & D)]; [apply int_left_iff in Lz; [|exact R]; rewrite Lz; no_step; eauto|]. repeat back_step. eauto.
Qed.
Lemma sr_lefts dec o data m : (exists e, sr_unmarshal dec o data = (m, Err e)) <-> sr_left dec o data m.
Proof.
  assert (In05 : forall (r : bytes), (forall a b, ~ first [x05] r a b) -> ~ In x05 r).
  { intros r N X. apply in_split in X as (a & b & ->). destruct (cut x05 (a ++ x05 :: b)) as [[? ?]|] eqn:C; [apply first_cut in C; eapply N, C|apply cut_none in C; apply C, in_elt]. }
  assert (InSp : forall (r : bytes), (forall a b, ~ first (B " ") r a b) -> ~ In " "%byte r).
  { intros r N X. apply in_split in X as (a & b & ->). destruct (cut " " (a ++ " "%byte :: b)) as [[? ?]|] eqn:C; [apply first_cut in C; eapply N, C|apply cut_none in C; apply C, in_elt]. }
  split.
  - intros [e H]. unfold sr_unmarshal in H. change sr_sep with x05 in H. both H; [|stop H; apply srl_from; refusal]. both H; [|stop H; apply srl_from; refusal].
    both H; [|stop H; eapply srl_sep; [eassumption..|now apply In05]].
    assert (G : forall p isdir size slots r3, result_parts l1 l2 p isdir size slots r3 ->
      (exists e, sr_slots dec (mk_sr a (sr_path o) isdir size (sr_free o) (sr_total o) (sr_hubname o) (sr_tth o) (sr_hubaddr o) (sr_to o)) p slots r3 = (m, Err e)) -> sr_left dec o data m).
    { clear H. intros p isdir size slots r3 K H. apply slots_left in H as [[R ->]|(path & Hp & [[N ->]|(f & t & F & [[R (z & Lz & ->)]|(free & Hf & [[R (z & Lz & ->)]|(total & Ht & H)])])])]; setters.
      - eapply srl_path; eassumption.
      - eapply srl_slots; eassumption.
      - eapply srl_free; eassumption.
      - eapply srl_total; eassumption.
      - apply hub_lefts in H as [(th & HL & ->)|(hub & tth & rest & HR & H)]; setters; [eapply srl_hub; eassumption|].
        apply tail_left in H as [[-> N]|(addr & r & F2 & R & ->)]; unfold with_hub; setters; [eapply srl_address; eassumption|eapply srl_target; eassumption]. }
    destruct (sr_scan (rev l1) false []) as [b oo] eqn:SC.
    assert (C : (exists p sl, b = true /\ oo = Some (p, sl)) \/ (forall p sl, (b, oo) <> (true, Some (p, sl)))).
    { destruct b, oo as [[p sl]|]; [left; eauto|right; discriminate..]. }
    destruct C as [(p & sl & -> & ->)|C].
    + apply scan_iff in SC. eapply (G p true 0%N sl l2); [left; auto|]. exists e. exact H.
    + assert (H' : (let m0 := set_sr_isdir (set_sr_from o a) false in
        match cut x05 l2 with
        | None => (m0, Err (EText "invalid SR command: missing size"))
        | Some (sizeslots, data0) =>
            match cut " " sizeslots with
            | None => (m0, Err (EText "invalid SR command: missing size separator"))
            | Some (size, slots) => match parse_uint_trim size with Ok n => sr_slots dec (set_sr_size m0 n) l1 slots data0 | Err e => (set_sr_size m0 0, Err e) | Panic => (set_sr_size m0 0, Panic) end
            end
        end) = (m, Err e)) by (destruct b, oo as [[? ?]|]; [exfalso; eapply C; reflexivity|exact H..]).
      clear H. assert (Ns : ~ slots_like l1) by (apply scan_none; intros p sl; rewrite SC; apply C). both H'.
      * both H'.
        -- both H'; [|stop H'; eapply srl_size; eassumption]. eapply (G l1 false a0 l6 l4); [right; eauto 10|]. exists e. exact H'.
        -- stop H'. eapply srl_no_size; [eassumption..|]. intros ss r3 F. destruct (first_same _ _ _ _ _ _ E2 F) as [<- <-]. now apply InSp.
      * stop H'. eapply srl_no_size; [eassumption..|]. intros ss r3 F. exfalso. eapply H, F.
  - intros H.
    assert (G : forall n r1 from x r2 p isdir size slots r3, first (B " ") data n r1 -> name_read dec n from -> first [x05] r1 x r2 -> result_parts x r2 p isdir size slots r3 ->
      sr_unmarshal dec o data = sr_slots dec (mk_sr from (sr_path o) isdir size (sr_free o) (sr_total o) (sr_hubname o) (sr_tth o) (sr_hubaddr o) (sr_to o)) p slots r3).
    { clear H. intros n r1 from x r2 p isdir size slots r3 F1 Hn F2 K. unfold sr_unmarshal. change sr_sep with x05. repeat back_step. destruct K as [(-> & -> & -> & K)|(-> & K & -> & ss & s & F5 & F6 & U)].
      - rewrite (proj2 (scan_iff x p slots) K). reflexivity.
      - pose proof (proj2 (scan_none x) K) as SN. destruct (sr_scan (rev x) false []) as [b oo]. destruct b, oo as [[? ?]|]; [exfalso; eapply SN; reflexivity|repeat back_step; reflexivity..]. }
    assert (NS : forall n r1 from x r2, first (B " ") data n r1 -> name_read dec n from -> first [x05] r1 x r2 -> ~ slots_like x -> sr_unmarshal dec o data =
      (let m0 := set_sr_isdir (set_sr_from o from) false in
        match cut x05 r2 with
        | None => (m0, Err (EText "invalid SR command: missing size"))
        | Some (sizeslots, data0) =>
            match cut " " sizeslots with
            | None => (m0, Err (EText "invalid SR command: missing size separator"))
            | Some (size, slots) => match parse_uint_trim size with Ok n => sr_slots dec (set_sr_size m0 n) x slots data0 | Err e => (set_sr_size m0 0, Err e) | Panic => (set_sr_size m0 0, Panic) end
            end
        end)).
    { clear H. intros n r1 from x r2 F1 Hn F2 K. unfold sr_unmarshal. change sr_sep with x05. repeat back_step. pose proof (proj2 (scan_none x) K) as SN. destruct (sr_scan (rev x) false []) as [b oo].
      destruct b, oo as [[? ?]|]; [exfalso; eapply SN; reflexivity|reflexivity..]. }
    destruct H as [N|n r1 from F1 Hn N|n r1 from x r2 F1 Hn F2 Ns N|n r1 from x r2 ss r3 s slots F1 Hn F2 Ns F3 F4 N|n r1 from x r2 p isdir size slots r3 F1 Hn F2 K N
      |n r1 from x r2 p isdir size slots r3 path F1 Hn F2 K Hp N|n r1 from x r2 p isdir size slots r3 path f t z F1 Hn F2 K Hp F3 N Lz
      |n r1 from x r2 p isdir size slots r3 path f t free z F1 Hn F2 K Hp F3 Hf N Lz|n r1 from x r2 p isdir size slots r3 path f t free total tth F1 Hn F2 K Hp F3 Hf Ht HL
      |n r1 from x r2 p isdir size slots r3 path f t free total hub tth rest F1 Hn F2 K Hp F3 Hf Ht HR N|n r1 from x r2 p isdir size slots r3 path f t free total hub tth rest addr r4 F1 Hn F2 K Hp F3 Hf Ht HR F4 N].
    + unfold sr_unmarshal. no_step; [no_step|]; eauto.
    + unfold sr_unmarshal. change sr_sep with x05. repeat back_step. apply no_first in N. rewrite N. eexists; reflexivity.
    + rewrite (NS _ _ _ _ _ F1 Hn F2 Ns). cbv zeta. destruct (cut x05 r2) as [[ss r3]|] eqn:C; [|eexists; reflexivity]. apply first_cut, N, no_first in C. rewrite C. eexists; reflexivity.
    + rewrite (NS _ _ _ _ _ F1 Hn F2 Ns). cbv zeta. repeat back_step. no_step. eexists; reflexivity.
    + rewrite (G _ _ _ _ _ _ _ _ _ _ F1 Hn F2 K). apply slots_left. left. auto.
    + rewrite (G _ _ _ _ _ _ _ _ _ _ F1 Hn F2 K). apply slots_left. right. exists path. split; [exact Hp|]. left. auto.
    + rewrite (G _ _ _ _ _ _ _ _ _ _ F1 Hn F2 K). apply slots_left. right. exists path. split; [exact Hp|]. right. exists f, t. split; [exact F3|]. left. split; [exact N|]. exists z. auto.
    + rewrite (G _ _ _ _ _ _ _ _ _ _ F1 Hn F2 K). apply slots_left. right. exists path. split; [exact Hp|]. right. exists f, t. split; [exact F3|]. right. exists free. split; [exact Hf|]. left. split; [exact N|]. exists z. auto.
    + rewrite (G _ _ _ _ _ _ _ _ _ _ F1 Hn F2 K). apply slots_left. right. exists path. split; [exact Hp|]. right. exists f, t. split; [exact F3|]. right. exists free. split; [exact Hf|]. right. exists total. split; [exact Ht|].
      apply hub_lefts. left. exists tth. auto.
    + rewrite (G _ _ _ _ _ _ _ _ _ _ F1 Hn F2 K). apply slots_left. right. exists path. split; [exact Hp|]. right. exists f, t. split; [exact F3|]. right. exists free. split; [exact Hf|]. right. exists total. split; [exact Ht|].
      apply hub_lefts. right. exists hub, tth, rest. split; [exact HR|]. apply tail_left. left. auto.
    + rewrite (G _ _ _ _ _ _ _ _ _ _ F1 Hn F2 K). apply slots_left. right. exists path. split; [exact Hp|]. right. exists f, t. split; [exact F3|]. right. exists free. split; [exact Hf|]. right. exists total. split; [exact Ht|].
      apply hub_lefts. right. exists hub, tth, rest. split; [exact HR|]. apply tail_left. right. exists addr, r4. auto.
Qed.

(** ** Short searches *)
Lemma space39 data : match skipn 39 data with c :: _ => beq c " " | [] => false end = has_prefix (B " ") (skipn 39 data).
Proof.
  destruct (skipn 39 data) as [|c r]; [reflexivity|]. destruct (beq_spec c " ") as [->|N]; [reflexivity|]. destruct (has_prefix (B " ") (c :: r)) eqn:H; [|reflexivity]. apply has_prefix_spec in H as [x H]. now injection H as ->.
Qed.
Lemma no39 data : has_prefix (B " ") (skipn 39 data) = false <-> (forall t a, data = t ++ B " " ++ a -> length t <> 39).
Proof.
  split.
  - intros H t a -> L. destruct (at39 t (B " " ++ a) L) as [X _]. rewrite X, has_prefix_app in H. discriminate.
  - intros N. destruct (has_prefix (B " ") (skipn 39 data)) eqn:H; [|reflexivity]. apply cut39 in H as (t & a & E & L); [|discriminate]. exfalso. eapply N; eassumption.
Qed.
Lemma sa_lefts o data m : length (sa_tth o) = 24 -> ((exists e, sa_unmarshal o data = (m, Err e)) <-> sa_left o data m).
Proof.
  intros L0. assert (G : forall t a, data = t ++ B " " ++ a -> length t = 39 -> sa_unmarshal o data = (let '(r, h) := hash_unmarshal_base32 (sa_tth o) t in do u <- r keeping set_sa_tth o h; (set_sa_address (set_sa_tth o h) a, Ok tt))).
  { intros t a -> L. unfold sa_unmarshal. change base32_size with 39. destruct (at39 t (B " " ++ a) L) as [-> ->]. reflexivity. }
  split.
  - intros [e H]. destruct (has_prefix (B " ") (skipn 39 data)) eqn:P.
    + apply cut39 in P as (t & a & E & L); [|discriminate]. rewrite (G t a E L) in H. destruct (hash_unmarshal_base32 (sa_tth o) t) as [[[]|e'|] h] eqn:Hh; try discriminate. stop H.
      assert (R : refuses hash_read t) by (intros y Y; apply (hash_iff (sa_tth o)) in Y; [rewrite Hh in Y; discriminate|exact L0]).
      eapply sal_hash; [exact E|exact L|exact R|]. apply hash_left_iff; [exact L0|exact R|rewrite Hh; discriminate|eauto].
    + assert (m = o) as ->. { unfold sa_unmarshal in H. change base32_size with 39 in H. pose proof (space39 data) as S9. rewrite P in S9. destruct (skipn 39 data) as [|c r]; [now injection H as <- _|]. rewrite S9 in H. now injection H as <- _. }
      apply sal_sep. now apply no39.
  - intros [N|t a h E L R Lf].
    + apply no39 in N. unfold sa_unmarshal. change base32_size with 39. pose proof (space39 data) as S9. rewrite N in S9. destruct (skipn 39 data) as [|c r]; [eauto|]. rewrite S9. eauto.
    + rewrite (G t a E L). apply hash_left_iff in Lf as [e X]; [|exact L0|exact R|apply short_hash; [exact L0|lia]]. rewrite X. eexists; reflexivity.
Qed.
Lemma sp_lefts dec o data m : length (sp_tth o) = 24 -> ((exists e, sp_unmarshal dec o data = (m, Err e)) <-> sp_left dec o data m).
Proof.
  intros L0. assert (G : forall t a, data = t ++ B " " ++ a -> length t = 39 -> sp_unmarshal dec o data = (let '(r, h) := hash_unmarshal_base32 (sp_tth o) t in do u <- r keeping set_sp_tth o h; do n <- name_unmarshal dec a keeping set_sp_tth o h; (set_sp_user (set_sp_tth o h) n, Ok tt))).
  { intros t a -> L. unfold sp_unmarshal. change base32_size with 39. destruct (at39 t (B " " ++ a) L) as [-> ->]. reflexivity. }
  split.
  - intros [e H]. destruct (has_prefix (B " ") (skipn 39 data)) eqn:P.
    + apply cut39 in P as (t & a & E & L); [|discriminate]. rewrite (G t a E L) in H. destruct (hash_unmarshal_base32 (sp_tth o) t) as [[[]|e'|] h] eqn:Hh; try discriminate.
      * both H; [discriminate|]. stop H. eapply spl_user; [exact E|exact L| |assumption]. now apply (hash_iff (sp_tth o)) in Hh.
      * stop H. assert (R : refuses hash_read t) by (intros y Y; apply (hash_iff (sp_tth o)) in Y; [rewrite Hh in Y; discriminate|exact L0]).
        eapply spl_hash; [exact E|exact L|exact R|]. apply hash_left_iff; [exact L0|exact R|rewrite Hh; discriminate|eauto].
    + assert (m = o) as ->. { unfold sp_unmarshal in H. change base32_size with 39 in H. pose proof (space39 data) as S9. rewrite P in S9. destruct (skipn 39 data) as [|c r]; [now injection H as <- _|]. rewrite S9 in H. now injection H as <- _. }
      apply spl_sep. now apply no39.
  - intros [N|t a h E L R Lf|t a h E L Hh R].
    + apply no39 in N. unfold sp_unmarshal. change base32_size with 39. pose proof (space39 data) as S9. rewrite N in S9. destruct (skipn 39 data) as [|c r]; [eauto|]. rewrite S9. eauto.
    + rewrite (G t a E L). apply hash_left_iff in Lf as [e X]; [|exact L0|exact R|apply short_hash; [exact L0|lia]]. rewrite X. eexists; reflexivity.
    + rewrite (G t a E L). apply (hash_iff (sp_tth o)) in Hh; [|exact L0]. rewrite Hh. cbv iota beta. no_step. eexists; reflexivity.
Qed.

(** ** User information *)
Definition nums (m : myinfo) : Z * Z * Z * Z := (mi_hubs_normal m, mi_hubs_reg m, mi_hubs_op m, mi_slots m).
(** The same with other counters. *)
Definition set_nums (m : myinfo) (v : Z * Z * Z * Z) : myinfo :=
  let '(n, r, o, k) := v in set_mi_slots (set_mi_hubs_op (set_mi_hubs_reg (set_mi_hubs_normal m n) r) o) k.
Lemma set_nums_same m : set_nums m (nums m) = m.
Proof. now destruct m. Qed.
Lemma fields_err m cl fst f fs k v m1 e : f <> [] -> k <> [] -> cut ":" f = Some (k, v) -> tag_value m k v = (m1, Err e) -> tag_fields m cl fst (f :: fs) = (m1, cl, Err e).
Proof. intros N Nk C T. destruct f as [|c f]; [contradiction|]. cbn [tag_fields]. rewrite C. destruct k as [|k0 k]; [contradiction|]. now rewrite T. Qed.
Lemma no_slash_split s : split_byte "/" s = [s] <-> ~ In "/"%byte s.
Proof.
  split; [|apply split_byte_notin]. intros E. pose proof (split_byte_pieces "/" s) as P. rewrite E in P. apply P. now left.
Qed.
Lemma item_bad fst w m cl fs m' cl' : refuses (item_read fst) w ->
  ((exists e, tag_fields m cl fst (w :: fs) = (m', cl', Err e)) <-> exists v', item_left w (nums m) v' /\ m' = set_nums m v' /\ cl' = cl).
Proof.
  intros R. split.
  - intros [e H]. destruct w as [|w0 w1]; [exfalso; eapply R; constructor|]. remember (w0 :: w1) as w eqn:Ew. assert (Nw : w <> []) by (subst; discriminate).
    cbn [tag_fields] in H. rewrite Ew in H. rewrite <- Ew in H. clear Ew w0 w1. destruct (cut ":" w) as [[k v]|] eqn:C.
    + apply cut_spec in C as [-> Nk]. destruct k as [|c [|c' k]].
      * injection H as <- <- _. exists (nums m). rewrite set_nums_same. split; [|auto]. apply il_name. right. now exists v.
      * assert (Nc : c <> ":"%byte) by (intros ->; apply Nk; now left). change ([c] ++ ":"%byte :: v) with (c :: B ":" ++ v) in *.
        destruct (tag_value m [c] v) as [m1 [[]|e'|]] eqn:T; [destruct (tag_value_item fst c v m m1 Nc T) as [i I']; exfalso; eapply R, I'|injection H as <- <- _|discriminate].
        unfold tag_value in T. rewrite letter_key in T. cbv zeta in T. destruct (beq_spec (letter c) "V") as [E|NV]; [discriminate|]. destruct (beq_spec (letter c) "M") as [E|NM]; [discriminate|].
        destruct (beq_spec (letter c) "H") as [E|NH].
        -- destruct v as [|v0 v]; [discriminate|]. remember (v0 :: v) as s eqn:Es. clear Es. destruct (contains_byte "/" s) eqn:Cs.
           ++ destruct (split_byte "/" s) as [|s1 [|s2 [|s3 [|s4 ss]]]] eqn:Sp.
              4: { assert (J := join_split_byte "/" s). rewrite Sp in J. cbn in J. assert (Es : s = s1 ++ B "/" ++ s2 ++ B "/" ++ s3) by (rewrite <- J; reflexivity). clear J. subst s. symmetry in Sp. apply (split_on_byte "/") in Sp.
                both T; [|injection T as <- _; eexists; split; [eapply il_normal; [exact E|exact Sp|eassumption|apply int_left_iff; [eassumption|reflexivity]]|now destruct m]].
                both T; [|injection T as <- _; eexists; split; [eapply il_registered; [exact E|exact Sp|eassumption|eassumption|apply int_left_iff; [eassumption|reflexivity]]|now destruct m]].
                both T; [discriminate|injection T as <- _; eexists; split; [eapply il_operator; [exact E|exact Sp|eassumption|eassumption|apply int_left_iff; [eassumption|reflexivity]]|now destruct m]]. }
              all: injection T as <- _; exists (nums m); rewrite set_nums_same; split; [|auto]; eapply il_hubs; [exact E|apply (split_on_byte "/"); symmetry; exact Sp|cbn [length]; try lia..].
              apply contains_byte_spec in Cs. intros _. assert (J := join_split_byte "/" s). rewrite Sp in J. cbn in J. subst s1. now apply no_slash_split in Sp.
           ++ apply contains_byte_false in Cs. both T; [discriminate|]. injection T as <- _. eexists. split; [apply il_hub; [exact E|exact Cs|apply int_left_iff; [eassumption|reflexivity]]|now destruct m].
        -- destruct (beq_spec (letter c) "S") as [E|NS]; [|discriminate]. both T; [discriminate|]. injection T as <- _. eexists. split; [apply il_slots; [exact E|apply int_left_iff; [eassumption|reflexivity]]|now destruct m].
      * exfalso. apply (R (IExtra (c :: c' :: k) v)). change ((c :: c' :: k) ++ ":"%byte :: v) with ((c :: c' :: k) ++ B ":" ++ v). apply ir_key; [cbn; lia|exact Nk].
    + apply cut_none in C. destruct fst; [exfalso; apply (R (IClient w)); now apply ir_client|]. injection H as <- <- _. exists (nums m). rewrite set_nums_same. split; [|auto]. apply il_name. now left.
  - intros (v' & H & -> & ->). remember (nums m) as v eqn:Ev.
    assert (St : forall c s m1 e, c <> ":"%byte -> tag_value m [c] s = (m1, Err e) -> exists e, tag_fields m cl fst ((c :: B ":" ++ s) :: fs) = (m1, cl, Err e)).
    { intros c s m1 e Nc T. exists e. eapply fields_err; [discriminate| |apply colon_cut; exact Nc|exact T]. discriminate. }
    destruct H as [c s z n r o k L Ns Lz|c s1 s2 s3 z n r o k L Sp N1 Lz|c s1 s2 s3 x z n r o k L Sp H1 N2 Lz|c s1 s2 s3 x y z n r o k L Sp H1 H2 Lz|c s ps v L Sp P1 P3|c s z n r o k L Lz|f v Nf].
    + injection Ev as -> -> -> ->. assert (Es : s <> []) by (intros ->; apply (R (IHub 1)); now apply ir_hub_empty). assert (N : refuses int_read s) by (intros y Y; eapply R; now apply (ir_hub fst c s y)).
      apply int_left_iff in Lz; [|exact N]. apply int_no in N as [e N]. eapply St; [now apply (letter_colon c "H")|]. unfold tag_value. rewrite letter_key, L.
      change (beq "H" "V") with false. change (beq "H" "M") with false. change (beq "H" "H") with true. cbv iota zeta. destruct s as [|c0 s]; [contradiction|]. apply contains_byte_false in Ns. rewrite Ns, N, Lz. destruct m; reflexivity.
    + injection Ev as -> -> -> ->. apply int_left_iff in Lz; [|exact N1]. apply int_no in N1 as [e N1]. eapply St; [now apply (letter_colon c "H")|]. unfold tag_value. rewrite letter_key, L.
      change (beq "H" "V") with false. change (beq "H" "M") with false. change (beq "H" "H") with true. cbv iota zeta. apply (split_on_byte "/") in Sp. symmetry in Sp.
      assert (C : contains_byte "/" (s1 ++ B "/" ++ s2 ++ B "/" ++ s3) = true) by (apply contains_byte_spec, in_app_iff; right; now left).
      destruct (s1 ++ B "/" ++ s2 ++ B "/" ++ s3) as [|c0 y] eqn:E; [destruct s1; discriminate|]. rewrite C, Sp, N1, Lz. destruct m; reflexivity.
    + injection Ev as -> -> -> ->. apply int_left_iff in Lz; [|exact N2]. apply int_no in N2 as [e N2]. eapply St; [now apply (letter_colon c "H")|]. unfold tag_value. rewrite letter_key, L.
      change (beq "H" "V") with false. change (beq "H" "M") with false. change (beq "H" "H") with true. cbv iota zeta. apply (split_on_byte "/") in Sp. symmetry in Sp.
      assert (C : contains_byte "/" (s1 ++ B "/" ++ s2 ++ B "/" ++ s3) = true) by (apply contains_byte_spec, in_app_iff; right; now left).
      destruct (s1 ++ B "/" ++ s2 ++ B "/" ++ s3) as [|c0 y] eqn:E; [destruct s1; discriminate|]. rewrite C, Sp. repeat back_step. rewrite N2, Lz. destruct m; reflexivity.
    + injection Ev as -> -> -> ->. apply (split_on_byte "/") in Sp. symmetry in Sp. pose proof (split_byte_pieces "/" (s1 ++ B "/" ++ s2 ++ B "/" ++ s3)) as Pi. rewrite Sp in Pi.
      assert (N3 : refuses int_read s3) by (intros w W; eapply R; apply (ir_hubs fst c s1 s2 s3 x y w); [exact L|apply Pi; cbn; auto..|exact H1|exact H2|exact W]).
      apply int_left_iff in Lz; [|exact N3]. apply int_no in N3 as [e N3]. eapply St; [now apply (letter_colon c "H")|]. unfold tag_value. rewrite letter_key, L.
      change (beq "H" "V") with false. change (beq "H" "M") with false. change (beq "H" "H") with true. cbv iota zeta.
      assert (C : contains_byte "/" (s1 ++ B "/" ++ s2 ++ B "/" ++ s3) = true) by (apply contains_byte_spec, in_app_iff; right; now left).
      destruct (s1 ++ B "/" ++ s2 ++ B "/" ++ s3) as [|c0 q] eqn:E; [destruct s1; discriminate|]. rewrite C, Sp. repeat back_step. rewrite N3, Lz. destruct m; reflexivity.
    + subst v. rewrite set_nums_same. apply (split_on_byte "/") in Sp. symmetry in Sp. assert (C : contains_byte "/" s = true).
      { destruct (contains_byte "/" s) eqn:C; [reflexivity|]. apply contains_byte_false, no_slash_split in C. rewrite C in Sp. subst ps. exfalso. now apply P1. }
      eapply St; [now apply (letter_colon c "H")|]. unfold tag_value. rewrite letter_key, L.
      change (beq "H" "V") with false. change (beq "H" "M") with false. change (beq "H" "H") with true. cbv iota zeta. destruct s as [|c0 s]; [discriminate|]. rewrite C, Sp. destruct ps as [|? [|? [|? [|? ?]]]]; try reflexivity. exfalso. now apply P3.
    + injection Ev as -> -> -> ->. assert (N : refuses int_read s) by (intros y Y; eapply R; now apply (ir_slots fst c s y)).
      apply int_left_iff in Lz; [|exact N]. apply int_no in N as [e N]. eapply St; [now apply (letter_colon c "S")|]. unfold tag_value. rewrite letter_key, L.
      change (beq "S" "V") with false. change (beq "S" "M") with false. change (beq "S" "H") with false. change (beq "S" "S") with true. cbv iota zeta. rewrite N, Lz. destruct m; reflexivity.
    + subst v. rewrite set_nums_same. destruct f as [|f0 f]; [exfalso; eapply R; constructor|]. cbn [tag_fields]. destruct Nf as [Nf|[r Ef]].
      * destruct fst; [exfalso; eapply R; apply ir_client; [discriminate|exact Nf]|]. apply cut_none in Nf. rewrite Nf. eauto.
      * rewrite Ef. change (cut ":" (B ":" ++ r)) with (Some (@nil byte, r)). cbv iota. eauto.
Qed.
Lemma item_or fst f : (exists i, item_read fst f i) \/ refuses (item_read fst) f.
Proof.
  destruct (tag_fields myinfo0 [] fst [f]) as [x r] eqn:T. destruct r as [[]|e|]; [left; eapply fields_item, T|right..];
    intros i I'; rewrite (item_step _ _ _ I') in T; discriminate.
Qed.
Lemma fields_left fs : forall m cl fst m' cl', (exists e, tag_fields m cl fst fs = (m', cl', Err e)) <->
  exists done bad rest is v', fs = done ++ bad :: rest /\ items_read fst done is /\ refuses (item_read (match done with [] => fst | _ => false end)) bad /\
    item_left bad (nums (fold_left apply_item is m)) v' /\ m' = set_nums (fold_left apply_item is m) v' /\ cl' = fold_left apply_client is cl.
Proof.
  induction fs as [|f fs IH]; intros m cl fst m' cl'.
  - split; [intros [e [=]]|]. intros (done & bad & rest & is & v' & E & _). now destruct done.
  - destruct (item_or fst f) as [[i I']|R].
    + rewrite (item_step _ _ _ I'). rewrite IH. split.
      * intros (done & bad & rest & is & v' & -> & Is & R & L & -> & ->). exists (f :: done), bad, rest, (i :: is), v'. split; [reflexivity|]. split; [now constructor|]. split; [destruct done; exact R|]. auto.
      * intros (done & bad & rest & is & v' & E & Is & R & L & -> & ->). destruct done as [|g done].
        -- injection E as -> ->. exfalso. eapply R, I'.
        -- injection E as <- ->. inversion Is as [|? ? i2 ? is' Ii Is']; subst. assert (X : tag_fields m cl fst [f] = (apply_item m i, apply_client cl i, Ok tt)) by (rewrite (item_step _ _ _ I'); reflexivity).
           assert (Y : tag_fields m cl fst [f] = (apply_item m i2, apply_client cl i2, Ok tt)) by (rewrite (item_step _ _ _ Ii); reflexivity). rewrite X in Y. injection Y as Y1 Y2.
           exists done, bad, rest, is', v'. cbn [fold_left] in *. rewrite Y1, Y2. split; [reflexivity|]. split; [exact Is'|]. split; [destruct done; exact R|]. auto.
    + rewrite (item_bad fst f m cl fs m' cl' R). split.
      * intros (v' & L & -> & ->). exists [], f, fs, [], v'. split; [reflexivity|]. split; [constructor|]. auto.
      * intros (done & bad & rest & is & v' & E & Is & R' & L & -> & ->). destruct done as [|g done].
        -- injection E as <- <-. inversion Is; subst. exists v'. auto.
        -- injection E as <- ->. inversion Is as [|? ? i2 ? is' Ii Is']; subst. exfalso. eapply R, Ii.
Qed.
(** What the first field leaves, with the map of additional fields in the order of the model. *)
Definition desc_state (x : myinfo) (client version : bytes) (mode : byte) (v : Z * Z * Z * Z) (extra : list (bytes * bytes)) : myinfo :=
  set_nums (set_mi_extra (set_mi_mode (set_mi_version (set_mi_client x client) version) mode) extra) v.
(** [desc_read] with the map of additional fields in the order of the model. *)
Definition desc_exact (x : myinfo) (f0 : bytes) (hastag : bool) (client version : bytes) (mode : byte) (v : Z * Z * Z * Z) (extra : list (bytes * bytes)) (d : bytes) : Prop :=
  hastag = false /\ ~ In "<"%byte f0 /\ client = mi_client x /\ version = mi_version x /\ mode = x00 /\ v = nums x /\ extra = mi_extra x /\ d = f0 \/
  hastag = true /\ exists tag tag' c t fs is, f0 = d ++ B "<" ++ tag /\ ~ In "<"%byte tag /\ tag <> [] /\ without_suffix (B ">") tag tag' /\ tag_split tag' c t /\
    split_on (B ",") t fs /\ items_read true fs is /\ client = last_of sel_client c is /\ version = last_of sel_version (mi_version x) is /\ mode = last_of sel_mode x00 is /\
    v = (last_of sel_normal (mi_hubs_normal x) is, last_of sel_reg (mi_hubs_reg x) is, last_of sel_op (mi_hubs_op x) is, last_of sel_slots (mi_slots x) is) /\
    extra = fold_left set_extra_item is [].
Lemma desc_good dec x f0 m hastag : myinfo_desc dec x f0 = (m, Ok hastag) <->
  exists client version mode v extra d desc, desc_exact x f0 hastag client version mode v extra d /\ str_read dec d desc /\ m = set_mi_desc (desc_state x client version mode v extra) desc.
Proof.
  rewrite desc_over. unfold desc_exact, desc_state. split.
  - intros (desc & client & version & mode & hn & hr & ho & slots & extra & -> & [(-> & No & Sd & -> & -> & -> & [= -> -> -> ->] & ->)|(-> & d & tag & tag' & c & t & fs & is & Ef & Nl & Nt & Sd & W & Ts & Sp & Is & -> & -> & -> & -> & -> & -> & -> & ->)]).
    + exists (mi_client x), (mi_version x), x00, (nums x), (mi_extra x), f0, desc. split; [left; auto 10|]. split; [exact Sd|now destruct x].
    + do 7 eexists. split; [right; split; [reflexivity|]; exists tag, tag', c, t, fs, is; repeat (split; [eassumption|]); repeat split; reflexivity|]. split; [exact Sd|now destruct x].
  - intros (client & version & mode & v & extra & d & desc & [(-> & No & -> & -> & -> & -> & -> & ->)|(-> & tag & tag' & c & t & fs & is & Ef & Nl & Nt & W & Ts & Sp & Is & -> & -> & -> & -> & ->)] & Sd & ->).
    + do 9 eexists. split; [|left; split; [reflexivity|]; split; [exact No|]; split; [exact Sd|]; auto]. now destruct x.
    + do 9 eexists. split; [|right; split; [reflexivity|]; exists d, tag, tag', c, t, fs, is; split; [exact Ef|]; split; [exact Nl|]; split; [exact Nt|]; split; [exact Sd|]; split; [exact W|]; split; [exact Ts|]; split; [exact Sp|]; split; [exact Is|]; repeat split; reflexivity]. now destruct x.
Qed.
Lemma tag_left x tag m : (exists e, unmarshal_tag x tag = (m, Err e)) <->
  exists c t fs done bad rest is v', tag_split tag c t /\ split_on (B ",") t fs /\ fs = done ++ bad :: rest /\ items_read true done is /\
    refuses (item_read (match done with [] => true | _ => false end)) bad /\ item_left bad (nums (fold_left apply_item is (set_mi_extra x []))) v' /\ m = set_nums (fold_left apply_item is (set_mi_extra x [])) v'.
Proof.
  unfold unmarshal_tag. destruct (match cut_seq (B " V:") tag with Some _ => _ | None => _ end) as [c t] eqn:Ts. split.
  - intros [e H]. destruct (tag_fields _ c true (split_byte "," t)) as [[m1 cl] [[]|e'|]] eqn:Tf; [discriminate|injection H as <- _|discriminate].
    destruct (proj1 (fields_left _ _ _ _ _ _) (ex_intro _ e' Tf)) as (done & bad & rest & is & v' & E & Is & R & L & -> & _). exists c, t, (split_byte "," t), done, bad, rest, is, v'.
    split; [now apply tag_split_iff|]. split; [now apply (split_on_byte ",")|]. auto 10.
  - intros (c' & t' & fs & done & bad & rest & is & v' & Ts' & Sp & E & Is & R & L & ->). apply tag_split_iff in Ts'. rewrite Ts in Ts'. injection Ts' as <- <-. apply (split_on_byte ",") in Sp. rewrite <- Sp.
    destruct (proj2 (fields_left fs (set_mi_extra x []) c true _ _) (ex_intro _ done (ex_intro _ bad (ex_intro _ rest (ex_intro _ is (ex_intro _ v' (conj E (conj Is (conj R (conj L (conj eq_refl eq_refl))))))))))) as [e T].
    rewrite T. eauto.
Qed.
Lemma tag_good x tag m : unmarshal_tag x tag = (m, Ok tt) <-> exists c t fs is, tag_split tag c t /\ split_on (B ",") t fs /\ items_read true fs is /\
  m = set_mi_client (fold_left apply_item is (set_mi_extra x [])) (last_of sel_client c is).
Proof.
  unfold unmarshal_tag. destruct (match cut_seq (B " V:") tag with Some _ => _ | None => _ end) as [c t] eqn:Ts. split.
  - intros H. destruct (tag_fields _ c true (split_byte "," t)) as [[m1 cl] [[]|e'|]] eqn:Tf; [injection H as <-|discriminate..]. apply fields_iff in Tf as (is & Is & -> & ->).
    exists c, t, (split_byte "," t), is. split; [now apply tag_split_iff|]. split; [now apply (split_on_byte ",")|]. split; [exact Is|]. now rewrite fold_client.
  - intros (c' & t' & fs & is & Ts' & Sp & Is & ->). apply tag_split_iff in Ts'. rewrite Ts in Ts'. injection Ts' as <- <-. apply (split_on_byte ",") in Sp. rewrite <- Sp.
    rewrite (proj2 (fields_iff fs (set_mi_extra x []) c true _ _) (ex_intro _ is (conj Is (conj eq_refl eq_refl)))). now rewrite fold_client.
Qed.
Lemma desc_left dec x f0 m : (exists e, myinfo_desc dec x f0 = (m, Err e)) <->
  (exists d, f0 = d ++ B "<" /\ m = set_mi_mode x x00) \/
  (exists d tag tag' c t fs done bad rest is v', f0 = d ++ B "<" ++ tag /\ ~ In "<"%byte tag /\ tag <> [] /\ without_suffix (B ">") tag tag' /\ tag_split tag' c t /\ split_on (B ",") t fs /\
     fs = done ++ bad :: rest /\ items_read true done is /\ refuses (item_read (match done with [] => true | _ => false end)) bad /\
     item_left bad (last_of sel_normal (mi_hubs_normal x) is, last_of sel_reg (mi_hubs_reg x) is, last_of sel_op (mi_hubs_op x) is, last_of sel_slots (mi_slots x) is) v' /\
     m = desc_state x (mi_client x) (last_of sel_version (mi_version x) is) (last_of sel_mode x00 is) v' (fold_left set_extra_item is [])) \/
  (exists hastag client version mode v extra d, desc_exact x f0 hastag client version mode v extra d /\ refuses (str_read dec) d /\ m = desc_state x client version mode v extra).
Proof.
  unfold myinfo_desc. cbv zeta. destruct (last_cut "<" f0) as [[d tag]|] eqn:C.
  - apply last_cut_spec in C as C'. destruct C' as [E N].
    assert (U : forall d' tag', f0 = d' ++ B "<" ++ tag' -> ~ In "<"%byte tag' -> d' = d /\ tag' = tag).
    { intros d' tag' E' N'. assert (X : last_cut "<" f0 = Some (d', tag')) by now apply last_cut_spec. rewrite C in X. injection X as -> ->. auto. }
    destruct tag as [|t0 tag0].
    { split.
      - intros [e [= <- _]]. left. exists d. auto.
      - intros [(d' & E' & ->)|[(d' & tag & tag' & c & t & fs & done & bad & rest & is & v' & E' & N' & Nt & _)|(hastag & client & version & mode & v & extra & d' & [(_ & No & _)|(_ & tag & tag' & c & t & fs & is & E' & N' & Nt & _)] & _)]].
        + eauto.
        + destruct (U _ _ E' N') as [_ X]. contradiction.
        + exfalso. apply No. rewrite E. apply in_app_iff. right. now left.
        + destruct (U _ _ E' N') as [_ X]. contradiction. }
    remember (t0 :: tag0) as tag eqn:Et. assert (Nt : tag <> []) by (subst; discriminate). clear Et t0 tag0. set (tg := if last_is ">" tag then drop_last tag else tag).
    assert (W : without_suffix (B ">") tag tg) by now apply closing_tag. split.
    + intros [e H]. right. destruct (unmarshal_tag (set_mi_mode x x00) tg) as [m1 [[]|e'|]] eqn:T; [|injection H as <- _|discriminate].
      * right. apply tag_good in T as (c & t & fs & is & Ts & Sp & Is & ->). both H; [discriminate|]. injection H as <- _. do 7 eexists. split; [right; split; [reflexivity|]; exists tag, tg, c, t, fs, is; repeat (split; [eassumption|]); repeat split; reflexivity|].
        split; [exact E0|]. rewrite fold_items. now destruct x.
      * left. destruct (proj1 (tag_left _ _ _) (ex_intro _ e' T)) as (c & t & fs & done & bad & rest & is & v' & Ts & Sp & Ef & Is & R & L & ->). rewrite fold_items in *. exists d, tag, tg, c, t, fs, done, bad, rest, is, v'.
        repeat (split; [first [eassumption|exact L]|]). destruct v' as [[[? ?] ?] ?]. now destruct x.
    + intros [(d' & E' & ->)|[(d' & tag1 & tag' & c & t & fs & done & bad & rest & is & v' & E' & N' & Nt' & W' & Ts & Sp & Ef & Is & R & L & ->)|(hastag & client & version & mode & v & extra & d' & [(_ & No & _)|(-> & tag1 & tag' & c & t & fs & is & E' & N' & Nt' & W' & Ts & Sp & Is & -> & -> & -> & -> & ->)] & Rd & ->)]].
      * destruct (U d' [] E') as [_ X]; [intros []|]. congruence.
      * destruct (U _ _ E' N') as [-> ->]. apply closing_tag in W'. fold tg in W'. subst tag'.
        destruct (proj2 (tag_left (set_mi_mode x x00) tg (set_nums (fold_left apply_item is (set_mi_extra (set_mi_mode x x00) [])) v'))) as [e T].
        { exists c, t, fs, done, bad, rest, is, v'. repeat (split; [eassumption|]). split; [|reflexivity]. rewrite fold_items. exact L. }
        rewrite T. exists e. f_equal. rewrite fold_items. destruct v' as [[[? ?] ?] ?]. now destruct x.
      * exfalso. apply No. rewrite E. apply in_app_iff. right. now left.
      * destruct (U _ _ E' N') as [-> ->]. apply closing_tag in W'. fold tg in W'. subst tag'.
        rewrite (proj2 (tag_good (set_mi_mode x x00) tg _) (ex_intro _ c (ex_intro _ t (ex_intro _ fs (ex_intro _ is (conj Ts (conj Sp (conj Is eq_refl)))))))). cbv iota beta. no_step. eexists. f_equal. rewrite fold_items. now destruct x.
  - apply last_cut_none in C. split.
    + intros [e H]. both H; [discriminate|]. injection H as <- _. right. right. exists false. do 6 eexists. split; [left; split; [reflexivity|]; split; [exact C|]; repeat split; reflexivity|]. split; [exact E|now destruct x].
    + intros [(d' & E' & ->)|[(d' & tag & tag' & c & t & fs & done & bad & rest & is & v' & E' & N' & Nt & _)|(hastag & client & version & mode & v & extra & d' & [(-> & No & -> & -> & -> & -> & -> & ->)|(_ & tag & tag' & c & t & fs & is & E' & N' & Nt & _)] & Rd & ->)]].
      * exfalso. apply C. rewrite E'. apply in_app_iff. right. now left.
      * exfalso. apply C. rewrite E'. apply in_app_iff. right. now left.
      * no_step. eexists. destruct x. reflexivity.
      * exfalso. apply C. rewrite E'. apply in_app_iff. right. now left.
Qed.
Lemma end_left dec m f3 f4 m' : (exists e, myinfo_end dec m f3 f4 = (m', Err e)) <-> refuses (str_read dec) f3 /\ m' = m.
Proof.
  unfold myinfo_end. split.
  - intros [e H]. both H; [destruct f4; discriminate|]. injection H as <- _. auto.
  - intros [R ->]. no_step. eauto.
Qed.
(** The mode of users without a tag. *)
Definition moded (m : myinfo) (hastag : bool) (md : byte) : myinfo := if hastag then m else set_mi_mode m (if beq md " " then x00 else md).
Lemma rest_left dec m hastag f1 f2 f3 f4 m' : (exists e, myinfo_rest dec m hastag f1 f2 f3 f4 = (m', Err e)) <->
  length f1 <> 1 /\ m' = m \/
  exists md, f1 = [md] /\
   ((exists c flag, f2 = c ++ [flag] /\ refuses (str_read dec) c /\ m' = set_mi_flag (moded m hastag md) flag) \/
    refuses (str_read dec) f3 /\ (f2 = [] /\ m' = moded m hastag md \/ exists c flag conn, f2 = c ++ [flag] /\ str_read dec c conn /\ m' = set_mi_conn (set_mi_flag (moded m hastag md) flag) conn)).
Proof.
  unfold myinfo_rest. split.
  - intros [e H]. destruct f1 as [|md [|]]; [injection H as <- _; left; cbn; auto| |injection H as <- _; left; cbn; split; [lia|reflexivity]]. cbv zeta in H. fold (moded m hastag md) in H. right. exists md. split; [reflexivity|]. destruct f2 as [|fl c _] using rev_ind.
    + cbn [rev] in H. right. destruct (proj1 (end_left _ _ _ _ _) (ex_intro _ e H)) as [R ->]. auto.
    + rewrite rev_app_distr in H. cbn [rev app] in H. rewrite drop_last_app in H. both H; [right|left; injection H as <- _; exists c, fl; auto].
      destruct (proj1 (end_left _ _ _ _ _) (ex_intro _ e H)) as [R ->]. split; [exact R|]. right. exists c, fl, a. auto.
  - intros [[N ->]|(md & -> & [(c & flag & -> & R & ->)|[R [[-> ->]|(c & flag & conn & -> & Hc & ->)]]])].
    + destruct f1 as [|md [|]]; [eauto|cbn in N; lia|eauto].
    + cbv zeta. fold (moded m hastag md). rewrite rev_app_distr. cbn [rev app]. rewrite drop_last_app. no_step. eauto.
    + cbv zeta. fold (moded m hastag md). cbn [rev]. apply end_left. auto.
    + cbv zeta. fold (moded m hastag md). rewrite rev_app_distr. cbn [rev app]. rewrite drop_last_app. repeat back_step. apply end_left. auto.
Qed.
Lemma entry_one dec s x : userip_sub dec [s] [] = ([x], Ok tt) <-> userip_entry dec s x.
Proof.
  rewrite userip_sub_iff. split.
  - intros (t & E & F). cbn in E. subst t. now inversion F.
  - intros H. exists [x]. auto.
Qed.
Lemma userip_subs dec l : forall acc m, (exists e, userip_sub dec l acc = (m, Err e)) <-> exists r, m = acc ++ r /\ list_left (userip_entry dec) l r.
Proof.
  induction l as [|s l IH]; intros acc m.
  - cbn [userip_sub]. split; [intros [e H]; discriminate|intros (r & _ & H); now apply list_left_nil in H].
  - pose proof (entry_one dec s) as One. cbn [userip_sub] in *. destruct (match last_cut " " s with Some (n, ip) => (n, ip) | None => (s, []) end) as [n ip].
    destruct (name_unmarshal dec n) as [x|e|] eqn:E; [| |now apply name_unmarshal_total in E].
    + rewrite IH. cbn [app] in One. split.
      * intros (r & -> & H). exists ((x, ip) :: r). split; [now rewrite <- app_assoc|]. apply list_left_cons. right. exists (x, ip), r. split; [now apply One|]. auto.
      * intros (r & -> & H). apply list_left_cons in H as [[N _]|(y & l' & Hy & -> & H)]; [exfalso; apply (N (x, ip)); now apply One|]. apply One in Hy. injection Hy as <-.
        exists l'. split; [now rewrite <- app_assoc|exact H].
    + split.
      * intros [e' H]. injection H as <- _. exists []. split; [now rewrite app_nil_r|]. apply list_left_cons. left. split; [|reflexivity]. intros y Hy. apply One in Hy. discriminate.
      * intros (r & -> & H). apply list_left_cons in H as [[_ ->]|(y & l' & Hy & _)]; [rewrite app_nil_r; eauto|]. apply One in Hy. discriminate.
Qed.
Lemma userip_lefts dec data m : (exists e, userip_unmarshal dec data = (m, Err e)) <->
  exists d1 d2 ps, without_suffix [x0d] data d1 /\ without_suffix (B "$$") d1 d2 /\ split_on (B "$$") d2 ps /\ list_left (userip_entry dec) ps m.
Proof.
  unfold userip_unmarshal. rewrite userip_subs. split.
  - intros (r & -> & L). exists (trim_suffix [x0d] data), (trim_suffix (B "$$") (trim_suffix [x0d] data)), (split_seq (B "$$") (trim_suffix (B "$$") (trim_suffix [x0d] data))).
    split; [now apply without_suffix_iff|]. split; [now apply without_suffix_iff|]. split; [now apply split_on_seq|exact L].
  - intros (d1 & d2 & ps & W1 & W2 & Sp & L). apply without_suffix_iff in W1; [|discriminate]. apply without_suffix_iff in W2; [|discriminate]. apply split_on_seq in Sp; [|discriminate].
    subst. exists m. auto.
Qed.
Lemma names_lefts dec o data m : (exists e, names_unmarshal dec o data = (m, Err e)) <-> refuses (names_read dec) data /\ m = o.
Proof.
  pose proof (names_un_total dec o data) as T. assert (K : forall l, names_read dec data l <-> names_unmarshal dec o data = (l, Ok tt)).
  { intros l. rewrite <- names_reads. unfold names_unmarshal. destruct (trim_suffix (B "$$") data); [reflexivity|]. now destruct (names_sub dec _). }
  unfold refuses. setoid_rewrite K. clear K. unfold names_unmarshal in *. destruct (trim_suffix (B "$$") data) as [|c d].
  - split; [intros [e H]; discriminate|intros [H _]; exfalso; now apply (H [])].
  - destruct (names_sub dec _) as [r|e|]; cbn [snd] in T.
    + split; [intros [e H]; discriminate|intros [H _]; exfalso; now apply (H r)].
    + split; [intros [e' [= <- _]]; split; [discriminate|reflexivity]|intros [_ ->]; eauto].
    + contradiction.
Qed.
(** ** User information *)
Lemma myinfo_left_iff dec o data m : (exists e, myinfo_unmarshal dec o data = (m, Err e)) <->
  (forall n r, data = B "$ALL " ++ n ++ B " " ++ r -> ~ In " "%byte n -> refuses (name_read dec) n) /\ m = o \/
  exists n name r, data = B "$ALL " ++ n ++ B " " ++ r /\ ~ In " "%byte n /\ name_read dec n name /\
   (length (split_byte "$" r) <> 6 /\ m = set_mi_name o name \/
    exists f0 f1 f2 f3 f4 f5, split_byte "$" r = [f0; f1; f2; f3; f4; f5] /\
     ((exists e, myinfo_desc dec (set_mi_name o name) f0 = (m, Err e)) \/
      exists m1 hastag, myinfo_desc dec (set_mi_name o name) f0 = (m1, Ok hastag) /\ exists e, myinfo_rest dec m1 hastag f1 f2 f3 f4 = (m, Err e))).
Proof.
  unfold myinfo_unmarshal. split.
  - intros [e H]. destruct (has_prefix (B "$ALL ") data) eqn:P.
    2: { injection H as <- _. left. split; [|reflexivity]. intros n r ->. now rewrite has_prefix_app in P. }
    apply has_prefix_spec in P as [d ->]. change (skipn 5 (B "$ALL " ++ d)) with d in H. destruct (cut " " d) as [[n r]|] eqn:C.
    2: { injection H as <- _. left. split; [|reflexivity]. intros n r E N. apply app_inv_head in E. rewrite E in C. change (B " " ++ r) with (" "%byte :: r) in C. now rewrite cut_app in C. }
    apply cut_spec in C as [-> N]. both H.
    2: { injection H as <- _. left. split; [|reflexivity]. intros n' r' E' N'. apply app_inv_head in E'. assert (X : cut " " (n ++ " "%byte :: r) = cut " " (n' ++ " "%byte :: r')) by (f_equal; exact E').
         rewrite !cut_app in X by assumption. injection X as <- <-. exact E. }
    right. exists n, a, r. split; [reflexivity|]. split; [exact N|]. split; [exact E|]. cbv zeta in H.
    destruct (split_byte "$" r) as [|f0 [|f1 [|f2 [|f3 [|f4 [|f5 [|]]]]]]]; try (injection H as <- _; left; cbn; split; [lia|reflexivity]).
    right. exists f0, f1, f2, f3, f4, f5. split; [reflexivity|]. destruct (myinfo_desc _ _ _) as [m1 [h|e'|]] eqn:D; [|left; injection H as <- _; eauto|discriminate]. right. eauto.
  - intros [[H ->]|(n & name & r & -> & N & Hn & H)].
    + destruct (has_prefix (B "$ALL ") data) eqn:P; [|eauto]. apply has_prefix_spec in P as [d ->]. change (skipn 5 (B "$ALL " ++ d)) with d.
      destruct (cut " " d) as [[n r]|] eqn:C; [|eauto]. apply cut_spec in C as [-> N]. specialize (H n r eq_refl N). no_step. eauto.
    + rewrite has_prefix_app. change (skipn 5 (B "$ALL " ++ n ++ B " " ++ r)) with (n ++ " "%byte :: r). rewrite cut_app by exact N. repeat back_step. cbv zeta.
      destruct H as [[L ->]|(f0 & f1 & f2 & f3 & f4 & f5 & -> & [[e ->]|(m1 & h & -> & [e ->])])]; [|eauto..].
      destruct (split_byte "$" r) as [|f0 [|f1 [|f2 [|f3 [|f4 [|f5 [|]]]]]]]; try (eexists; reflexivity). now cbn in L.
Qed.
Lemma desc_sound o name f0 hastag client version mode v extra d : desc_exact (set_mi_name o name) f0 hastag client version mode v extra d -> desc_read o f0 hastag client version mode v extra d.
Proof.
  intros [(-> & No & -> & -> & -> & -> & -> & ->)|(-> & tag & tag' & c & t & fs & is & -> & Nl & Nt & W & Ts & Sp & Is & -> & -> & -> & -> & ->)].
  - exact (dr_plain o f0 No).
  - exact (dr_tag o d tag tag' c t fs is _ Nl Nt W Ts Sp Is (extras_fold is)).
Qed.
Lemma desc_back o name f0 hastag client version mode v extra d : desc_read o f0 hastag client version mode v extra d ->
  exists extra', desc_exact (set_mi_name o name) f0 hastag client version mode v extra' d /\ Permutation extra' extra.
Proof.
  intros [f No|d' tag tag' c t fs is ex Nl Nt W Ts Sp Is Ex].
  - exists (mi_extra o). split; [|reflexivity]. left. auto 10.
  - exists (fold_left set_extra_item is []). split; [|now apply (extras_unique is); [apply extras_fold|]]. right. split; [reflexivity|]. exists tag, tag', c, t, fs, is. auto 20.
Qed.
Lemma six_split f0 f1 f2 f3 f4 f5 : Forall (fun f => ~ In "$"%byte f) [f0; f1; f2; f3; f4; f5] -> split_byte "$" (sep_by (B "$") [f0; f1; f2; f3; f4; f5]) = [f0; f1; f2; f3; f4; f5].
Proof. intros F. now apply six_fields. Qed.
Ltac flat_info := unfold moded, desc_state, info_with, set_nums; repeat match goal with v : (Z * Z * Z * Z)%type |- _ => destruct v as [[[? ?] ?] ?] end;
  match goal with o : myinfo |- _ => destruct o end; try match goal with h : bool |- _ => destruct h end; reflexivity.
Lemma myinfo_lefts dec o data m : (exists e, myinfo_unmarshal dec o data = (m, Err e)) -> myinfo_left dec o data m.
Proof.
  intros H. apply myinfo_left_iff in H as [[H ->]|(n & name & r & -> & N & Hn & [[L ->]|(f0 & f1 & f2 & f3 & f4 & f5 & Sp & H)])].
  - now apply mil_name.
  - eapply mil_fields; [exact N|exact Hn|now apply (split_on_byte "$")|exact L].
  - apply six_fields in Sp as [-> F]. destruct H as [H|(m1 & h & D & R)].
    + apply desc_left in H as [(d & -> & ->)|[(d & tag & tag' & c & t & fs & done & bad & rest & is & v' & -> & N' & Nt & W & Ts & Sp & Ef & Is & R & L & ->)|(h & client & version & mode & v & extra & d & D & R & ->)]].
      * apply mil_empty_tag; [exact N|exact Hn|]. inversion F as [|? ? F0 F']; subst. constructor; [|exact F']. intros X. apply F0. apply in_app_iff. auto.
      * cbn [mi_hubs_normal mi_hubs_reg mi_hubs_op mi_slots set_mi_name] in L.
        pose proof (mil_tag dec o n name d tag tag' c t fs done bad rest is _ v' _ f1 f2 f3 f4 f5 N Hn F N' Nt W Ts Sp Ef Is R (extras_fold is) eq_refl L) as G.
        match goal with |- myinfo_left _ _ _ ?x => match type of G with myinfo_left _ _ _ ?y => replace x with y; [exact G|] end end. flat_info.
      * apply desc_sound in D. pose proof (mil_desc dec o n name f0 h client version mode v extra d f1 f2 f3 f4 f5 N Hn F D R) as G.
        match goal with |- myinfo_left _ _ _ ?x => match type of G with myinfo_left _ _ _ ?y => replace x with y; [exact G|] end end. flat_info.
    + apply desc_good in D as (client & version & mode & v & extra & d & desc & D & Sd & ->). apply desc_sound in D.
      apply rest_left in R as [[L ->]|(md & -> & [(c & flag & -> & R & ->)|[R G]])].
      * pose proof (mil_mode dec o n name f0 h client version mode v extra d desc f1 f2 f3 f4 f5 N Hn F D Sd L) as G.
        match goal with |- myinfo_left _ _ _ ?x => match type of G with myinfo_left _ _ _ ?y => replace x with y; [exact G|] end end. flat_info.
      * pose proof (mil_conn dec o n name f0 h client version mode v extra d desc md c flag f3 f4 f5 N Hn F D Sd R) as G.
        match goal with |- myinfo_left _ _ _ ?x => match type of G with myinfo_left _ _ _ ?y => replace x with y; [exact G|] end end. flat_info.
      * assert (X : exists conn flag, (f2 = [] /\ flag = mi_flag o /\ conn = mi_conn o \/ exists c, f2 = c ++ [flag] /\ str_read dec c conn) /\
          m = info_with o name desc client version (if h then mode else if beq md " " then x00 else md) v extra conn flag).
        { destruct G as [[-> ->]|(c & flag & conn & -> & Hc & ->)].
          - exists (mi_conn o), (mi_flag o). split; [auto|]. flat_info.
          - exists conn, flag. split; [eauto|]. flat_info. }
        destruct X as (conn & flag & Hc & ->). exact (mil_email dec o n name f0 h client version mode v extra d desc md f2 conn flag f3 f4 f5 N Hn F D Sd Hc R).
Qed.
Lemma myinfo_lefts_back dec o data m : myinfo_left dec o data m -> exists m' e, myinfo_unmarshal dec o data = (m', Err e) /\ myinfo_alike m' m.
Proof.
  assert (K : forall m', (exists e, myinfo_unmarshal dec o data = (m', Err e)) -> myinfo_alike m' m -> exists m' e, myinfo_unmarshal dec o data = (m', Err e) /\ myinfo_alike m' m).
  { intros m' [e H] A. eauto. }
  assert (S6 : forall n name f0 f1 f2 f3 f4 f5 m', data = B "$ALL " ++ n ++ B " " ++ sep_by (B "$") [f0; f1; f2; f3; f4; f5] -> ~ In " "%byte n -> name_read dec n name ->
    Forall (fun f => ~ In "$"%byte f) [f0; f1; f2; f3; f4; f5] ->
    ((exists e, myinfo_desc dec (set_mi_name o name) f0 = (m', Err e)) \/
      exists m1 hastag, myinfo_desc dec (set_mi_name o name) f0 = (m1, Ok hastag) /\ exists e, myinfo_rest dec m1 hastag f1 f2 f3 f4 = (m', Err e)) ->
    exists e, myinfo_unmarshal dec o data = (m', Err e)).
  { intros n name f0 f1 f2 f3 f4 f5 m' -> N Hn F H. apply myinfo_left_iff. right. exists n, name. eexists. split; [reflexivity|]. split; [exact N|]. split; [exact Hn|]. right. exists f0, f1, f2, f3, f4, f5. split; [now apply six_split|exact H]. }
  intros H. inversion H as [? Hr|n r name fs N Hn Sp L|n name d f1 f2 f3 f4 f5 N Hn F|n name d tag tag' c t fs done bad rest is v v' extra f1 f2 f3 f4 f5 N Hn F Nl Nt W Ts Sp Ef Is R Ex Ev L
    |n name f0 h client version mode v extra d f1 f2 f3 f4 f5 N Hn F D R|n name f0 h client version mode v extra d desc f1 f2 f3 f4 f5 N Hn F D Sd L
    |n name f0 h client version mode v extra d desc md c flag f3 f4 f5 N Hn F D Sd R|n name f0 h client version mode v extra d desc md f2 conn flag f3 f4 f5 N Hn F D Sd Hc R]; clear H; subst.
  - apply (K m); [apply myinfo_left_iff; left; auto|split; [now destruct m|reflexivity]].
  - eapply K; [apply myinfo_left_iff; right; exists n, name, r; split; [reflexivity|]; split; [exact N|]; split; [exact Hn|]; left; split; [apply (split_on_byte "$") in Sp; now rewrite <- Sp|reflexivity]|].
    split; [now destruct o|reflexivity].
  - eapply K; [eapply S6; [reflexivity|exact N|exact Hn| |left; apply desc_left; left; exists d; split; reflexivity]|split; [now destruct o|reflexivity]].
    inversion F as [|? ? F0 F']; subst. constructor; [|exact F']. intros X. apply in_app_iff in X as [X|[X|[]]]; [auto|discriminate].
  - eapply K.
    + eapply S6; [reflexivity|exact N|exact Hn|exact F|]. left. apply desc_left. right. left. exists d, tag, tag', c, t, (done ++ bad :: rest), done, bad, rest, is, v'. split; [reflexivity|]. do 8 (split; [first [reflexivity|eassumption]|]). split; [exact L|reflexivity].
    + split; [flat_info|]. assert (P : Permutation (fold_left set_extra_item is []) extra) by (apply (extras_unique is); [apply extras_fold|exact Ex]). revert P. clear. destruct v' as [[[? ?] ?] ?]. now destruct o.
  - destruct (desc_back o name _ _ _ _ _ _ _ _ D) as (extra' & D' & P). eapply K.
    + eapply S6; [reflexivity|exact N|exact Hn|exact F|]. left. apply desc_left. right. right. do 7 eexists. split; [exact D'|]. split; [exact R|reflexivity].
    + revert P. clear. intros P. destruct v as [[[? ?] ?] ?], o. split; [reflexivity|exact P].
  - destruct (desc_back o name _ _ _ _ _ _ _ _ D) as (extra' & D' & P). eapply K.
    + eapply S6; [reflexivity|exact N|exact Hn|exact F|]. right. do 2 eexists. split; [apply desc_good; do 7 eexists; split; [exact D'|]; split; [exact Sd|reflexivity]|]. apply rest_left. left. split; [exact L|reflexivity].
    + revert P. clear. intros P. destruct v as [[[? ?] ?] ?], o. split; [reflexivity|exact P].
  - destruct (desc_back o name _ _ _ _ _ _ _ _ D) as (extra' & D' & P). eapply K.
    + eapply S6; [reflexivity|exact N|exact Hn|exact F|]. right. do 2 eexists. split; [apply desc_good; do 7 eexists; split; [exact D'|]; split; [exact Sd|reflexivity]|]. apply rest_left. right. exists md. split; [reflexivity|]. left. exists c, flag. split; [reflexivity|]. split; [exact R|reflexivity].
    + revert P. clear. intros P. destruct v as [[[? ?] ?] ?], o, h; (split; [reflexivity|exact P]).
  - destruct (desc_back o name _ _ _ _ _ _ _ _ D) as (extra' & D' & P). destruct Hc as [(-> & -> & ->)|(c & -> & Hc)].
    + eapply K.
      * eapply S6; [reflexivity|exact N|exact Hn|exact F|]. right. do 2 eexists. split; [apply desc_good; do 7 eexists; split; [exact D'|]; split; [exact Sd|reflexivity]|]. apply rest_left. right. exists md. split; [reflexivity|]. right. split; [exact R|]. left. split; reflexivity.
      * revert P. clear. intros P. destruct v as [[[? ?] ?] ?], o, h; (split; [reflexivity|exact P]).
    + eapply K.
      * eapply S6; [reflexivity|exact N|exact Hn|exact F|]. right. do 2 eexists. split; [apply desc_good; do 7 eexists; split; [exact D'|]; split; [exact Sd|reflexivity]|]. apply rest_left. right. exists md. split; [reflexivity|]. right. split; [exact R|]. right. exists c, flag, conn. split; [reflexivity|]. split; [exact Hc|reflexivity].
      * revert P. clear. intros P. destruct v as [[[? ?] ?] ?], o, h; (split; [reflexivity|exact P]).
Qed.

(** ** All messages *)
Lemma lift_err {A} (c : A -> msg) p m e : lift c p = (m, Err e) <-> exists x, p = (x, Err e) /\ m = c x.
Proof.
  destruct p as [x r]. unfold lift. cbn. split; [intros [= <- ->]; eauto|intros (y & [= <- ->] & ->); reflexivity].
Qed.
Lemma failed_left dec o data m e : sized o -> msg_unmarshal dec o data = (m, Err e) -> left_by dec o data m.
Proof.
  intros Sz H. destruct o as [k s|k s|k|k s|k er|k l|o|o|o|o|o|o|o|o|o|o|o|o|o|o|o|o|o|o|o|t d]; cbn [msg_unmarshal sized] in *; try discriminate H;
    first [apply lift_err in H as (x & H & ->)|idtac].
  - unfold name_msg_unmarshal in H. both H; [discriminate|]. injection H as <- _. now apply lb_name.
  - unfold string_msg_unmarshal in H. both H; [discriminate|]. injection H as <- _. now apply lb_string.
  - injection H as <- H. apply lb_noargs. destruct data; discriminate.
  - unfold err_unmarshal in H. both H; [discriminate|]. injection H as <- _. now apply lb_err.
  - destruct (proj1 (names_lefts dec l data x) (ex_intro _ e H)) as [R ->]. now apply lb_names.
  - apply lb_chat, chat_lefts. eauto.
  - apply lb_pm, pm_lefts. eauto.
  - apply lb_mcto, mcto_lefts. eauto.
  - apply lb_ucmd, ucmd_lefts. eauto.
  - apply lb_ctm, ctm_lefts. eauto.
  - apply lb_rctm, rctm_lefts. eauto.
  - apply lb_adcget, adcget_lefts. eauto.
  - apply lb_adcsnd, adcsnd_lefts. eauto.
  - apply lb_direction, direction_lefts. eauto.
  - apply lb_hubinfo, hubinfo_lefts. eauto.
  - apply lb_search, search_lefts. eauto.
  - apply lb_sr, sr_lefts. eauto.
  - apply lb_sa, sa_lefts; eauto.
  - apply lb_sp, sp_lefts; eauto.
  - apply lb_myinfo, myinfo_lefts. eauto.
  - destruct (proj1 (userip_lefts dec data x) (ex_intro _ e H)) as (d1 & d2 & ps & W1 & W2 & Sp & L). now apply (lb_userip dec o data d1 d2 ps).
Qed.
Lemma left_failed dec o data m : sized o -> left_by dec o data m -> exists m' e, msg_unmarshal dec o data = (m', Err e) /\ msg_alike m' m.
Proof.
  assert (K : forall A (c : A -> msg) p x, (exists e, p = (x, Err e)) -> exists m' e, lift c p = (m', Err e) /\ msg_alike m' (c x)).
  { intros A c p x [e ->]. exists (c x), e. split; [reflexivity|now left]. }
  intros Sz H. destruct H; cbn [msg_unmarshal sized] in *.
  - apply K. unfold name_msg_unmarshal. no_step. eauto.
  - apply K. unfold string_msg_unmarshal. no_step. eauto.
  - destruct data; [contradiction|]. do 2 eexists. split; [reflexivity|now left].
  - apply K. unfold err_unmarshal. no_step. eauto.
  - apply K, names_lefts. auto.
  - apply K, chat_lefts, H.
  - apply K, pm_lefts, H.
  - apply K, mcto_lefts, H.
  - apply K, ucmd_lefts, H.
  - apply K, ctm_lefts, H.
  - apply K, rctm_lefts, H.
  - apply K, adcget_lefts, H.
  - apply K, adcsnd_lefts, H.
  - apply K, direction_lefts, H.
  - apply K, hubinfo_lefts, H.
  - apply K, search_lefts, H.
  - apply K, sr_lefts, H.
  - apply K, sa_lefts; [exact Sz|exact H].
  - apply K, sp_lefts; [exact Sz|exact H].
  - apply myinfo_lefts_back in H as (m' & e & H & A). exists (MMyInfo m'), e. split; [apply lift_err; eauto|right; eauto].
  - apply K, userip_lefts. exists d1, d2, ps. auto.
Qed.
Lemma left_unique dec o data m m' : sized o -> left_by dec o data m -> left_by dec o data m' -> msg_alike m m'.
Proof.
  intros Sz H H'. apply left_failed in H as (x & e & D & A); [|exact Sz]. apply left_failed in H' as (x' & e' & D' & A'); [|exact Sz]. rewrite D' in D. injection D as -> _. now apply (alike_trans x).
Qed.
Lemma outcomes dec o data : sized o ->
  ((exists m, reads_over dec o data m) \/ (exists m, left_by dec o data m) \/ (exists s, o = MSearch s) /\ search_crash dec data) /\
  (forall m m', reads_over dec o data m -> ~ left_by dec o data m') /\
  ((exists s, o = MSearch s) /\ search_crash dec data -> forall m, ~ reads_over dec o data m /\ ~ left_by dec o data m).
Proof.
  intros Sz. split; [|split].
  - destruct (msg_unmarshal dec o data) as [m [[]|e|]] eqn:E.
    + left. exists m. now apply decoded_over.
    + right. left. exists m. now apply (failed_left dec o data m e).
    + right. right. apply msg_panics; [exact Sz|]. now rewrite E.
  - intros m m' H L. apply over_decoded in H as (x & D & _); [|exact Sz]. apply left_failed in L as (x' & e & D' & _); [|exact Sz]. rewrite D in D'. discriminate.
  - intros C m. apply msg_panics in C; [|exact Sz]. split.
    + intros H. apply over_decoded in H as (x & D & _); [|exact Sz]. rewrite D in C. discriminate.
    + intros L. apply left_failed in L as (x' & e & D' & _); [|exact Sz]. rewrite D' in C. discriminate.
Qed.
