(** Decoding into a used message. *)
From Coq Require Import Permutation.
From Verif Require Import Base BaseFacts Num NumFacts NumSpec Utf8 Utf8Facts SpecText SpecHash SpecNmdc SpecRead SpecFrame SpecReuse NmdcText NmdcTextFacts.
From Verif Require Import NmdcChat NmdcHub NmdcFiles NmdcUser NmdcMessage Tiger NmdcChatFacts NmdcReuseFacts NmdcReadFacts NmdcReadChat NmdcReadCmd NmdcReadFiles NmdcReadHub NmdcReadUser NmdcReadMsg.

Lemma err_overs dec o data m : err_unmarshal dec o data = (m, Ok tt) <-> err_over dec o data m.
Proof.
  split.
  - intros H. unfold err_unmarshal in H. head_step H. injection H as <-. destruct a as [|c s]; [now apply eo_empty|]. now apply eo_text.
  - intros [data' H|data' s N H]; unfold err_unmarshal; repeat back_step; [reflexivity|]. destruct s; [contradiction|reflexivity].
Qed.

Lemma chat_overs dec o data m : chat_unmarshal dec o data = (m, Ok tt) <-> chat_over dec o data m.
Proof.
  assert (P : forall c d, chat_text dec c d = (m, Ok tt) <-> exists t, m = mk_chat (ch_name c) t /\ str_read dec d t).
  { intros n d. unfold chat_text. destruct (string_unmarshal dec d) as [t|e|] eqn:E; split; try discriminate.
    - intros [= <-]. exists t. split; [reflexivity|]. now apply str_iff.
    - intros (t' & -> & H). apply str_iff in H. rewrite E in H. injection H as ->. reflexivity.
    - intros (t' & -> & H). apply str_iff in H. congruence.
    - intros (t' & -> & H). apply str_iff in H. congruence. }
  split.
  - intros H. destruct data as [|c d].
    + apply (P o []) in H as (t & -> & H). apply co_plain; [intros [r X]; discriminate|exact H].
    + cbn [chat_unmarshal] in H. destruct (beq_spec c "<") as [->|N].
      * destruct (name_end (S (length d)) d 0) as [[i off]|e|] eqn:E; try discriminate. destruct (max_name <? _)%nat; [discriminate|].
        destruct (name_unmarshal dec (firstn i d)) as [sn|e|] eqn:En; try discriminate. apply P in H as (t & -> & H). apply name_iff in En.
        apply (co_named dec o d (firstn i d) (skipn (i + off) d)); [|exact En|exact H]. apply name_end_iff. eauto.
      * apply (P o (c :: d)) in H as (t & -> & H). apply co_plain; [intros [r X]; injection X as -> _; contradiction|exact H].
  - intros H. destruct H as [data t N H|d n t name text Pa Hn Ht].
    + assert (K : chat_text dec o data = (mk_chat (ch_name o) t, Ok tt)).
      { apply P. eauto. }
      destruct data as [|c d]; [exact K|]. cbn [chat_unmarshal]. destruct (beq_spec c "<") as [->|_]; [|exact K]. exfalso. apply N. exists d. reflexivity.
    + apply name_end_iff in Pa as (i & off & E & -> & ->). change (B "<" ++ d) with ("<"%byte :: d). cbn [chat_unmarshal]. change (beq "<" "<") with true. cbv iota. rewrite E.
      assert (Hn' := Hn). apply name_iff in Hn. destruct (Nat.ltb_spec max_name (length (firstn i d))) as [L|_].
      { exfalso. destruct Hn' as [L' _]. unfold max_name in L. lia. }
      rewrite Hn. apply P. eauto.
Qed.

(** Two results which are both failures, or both successes with the given relation. *)
Definition merged {A} (f : A -> A) (x y : A * res unit) : Prop :=
  snd x = snd y /\ (snd x = Ok tt -> fst x = f (fst y)).
Lemma merged_iff {A} (f : A -> A) x y m : merged f x y -> (x = (m, Ok tt) <-> exists m0, y = (m0, Ok tt) /\ m = f m0).
Proof.
  destruct x as [a r], y as [b r']. intros [E H]. cbn in *. subst r'. split.
  - intros [= -> ->]. exists b. split; [reflexivity|]. now apply H.
  - intros (m0 & [= -> ->] & ->). now rewrite H.
Qed.
Lemma merged_fail {A} (f : A -> A) a b r : r <> Ok tt -> merged f (a, r) (b, r).
Proof. split; [reflexivity|]. intros E. contradiction. Qed.
Lemma merged_ok {A} (f : A -> A) a b : a = f b -> merged f (a, Ok tt) (b, Ok tt).
Proof. split; auto. Qed.
Ltac fails := apply merged_fail; discriminate.

Lemma ucmd_merged dec o data : merged (fun m => if 2 <? length (splitn_byte 3 " " (trim_white data)) then m else mk_ucmd (uc_typ m) (uc_context m) (uc_path o) (uc_command o)) (ucmd_unmarshal dec o data) (ucmd_unmarshal dec ucmd0 data).
Proof.
  unfold ucmd_unmarshal. destruct (splitn_byte 3 " " (trim_white data)) as [|a [|b arr]] eqn:E; [fails|fails|]. destruct (atoi_trim a); [|fails|fails]. cbv zeta. destruct (atoi_trim (take_digits b)); [|fails|fails].
  destruct arr as [|v arr]; [now apply merged_ok|]. destruct (cut "$" v) as [[[|c0 p] rest]|]; [fails| |fails]. cbv zeta. destruct (unmarshal_path _ _ _) as [path [u|e|]]; [|fails|fails].
  destruct (string_unmarshal dec rest); [|fails|fails]. apply merged_ok. reflexivity.
Qed.
Lemma ucmd_overs dec o data m : ucmd_unmarshal dec o data = (m, Ok tt) <-> ucmd_over dec o data m.
Proof.
  rewrite (merged_iff _ _ _ m (ucmd_merged dec o data)). split.
  - intros (m0 & H & ->). apply ucmd_reads in H. inversion H as [data' core a b typ ctx Tr C1 Nb Ia L|data' core a r b v p c k ps typ ctx path cmd Tr C1 C2 Ia L C3 Np Ns Sp F Sc]; subst.
    + assert (X := Tr). apply trimmed_iff in X. rewrite <- X. cbn [splitn_byte]. assert (C1' := proj2 (first_cut " " _ _ _) C1). apply cut_none in Nb as Nb'. rewrite C1', Nb'. cbn [length Nat.ltb Nat.leb]. now apply (uo_bare dec o data core a b).
    + assert (X := Tr). apply trimmed_iff in X. rewrite <- X. cbn [splitn_byte]. assert (C1' := proj2 (first_cut " " _ _ _) C1). assert (C2' := proj2 (first_cut " " _ _ _) C2). rewrite C1', C2'. cbn [length Nat.ltb Nat.leb]. now apply (uo_full dec o data core a r b v).
  - intros H. destruct H as [data core a b typ ctx Tr C1 Nb Ia L|data core a r b v m Tr C1 C2 H].
    + exists (mk_ucmd typ ctx [] []). split; [apply ucmd_reads; now apply (ur_bare dec data core a b)|].
      apply trimmed_iff in Tr. rewrite <- Tr. cbn [splitn_byte]. apply (first_cut " ") in C1. apply cut_none in Nb. rewrite C1, Nb. reflexivity.
    + exists m. split; [now apply ucmd_reads|]. apply trimmed_iff in Tr. rewrite <- Tr. cbn [splitn_byte]. apply (first_cut " ") in C1, C2. rewrite C1, C2. reflexivity.
Qed.

Lemma spaced_cut r : existsb (fun c => beq c " ") r = match cut " " r with Some _ => true | None => false end.
Proof.
  destruct (cut " " r) as [[a b]|] eqn:C.
  - apply cut_spec in C as [-> _]. apply existsb_exists. exists " "%byte. split; [apply in_elt|reflexivity].
  - apply cut_none in C. destruct (existsb _ r) eqn:E; [|reflexivity]. exfalso. apply existsb_exists in E as (c & I & X). apply beq_true in X. subst c. contradiction.
Qed.
Lemma ctm_overs dec o data m : ctm_unmarshal dec o data = (m, Ok tt) <-> ctm_over dec o data m.
Proof.
  assert (M : forall data t r, cut " " data = Some (t, r) -> merged (fun m => mk_ctm (ct_targ m) (if existsb (fun c => beq c " ") r then ct_src m else ct_src o) (ct_address m) (ct_kind m) (ct_secure o || ct_secure m)) (ctm_unmarshal dec o data) (ctm_unmarshal dec ctm0 data)).
  { clear. intros data t r C. unfold ctm_unmarshal. rewrite C, spaced_cut. destruct (name_unmarshal dec t); [|fails|fails]. cbv zeta. destruct (cut " " r) as [[ad s]|].
    - destruct (name_unmarshal dec s); [|fails|fails]. destruct (last_is "S" ad); (destruct (last_is "N" _); [|destruct (last_is "R" _)]); apply merged_ok; unfold set_ct_address, set_ct_kind, set_ct_secure, set_ct_src, set_ct_targ; cbn; rewrite ?orb_true_r, ?orb_false_r; reflexivity.
    - destruct (last_is "S" r); (destruct (last_is "N" _); [|destruct (last_is "R" _)]); apply merged_ok; unfold set_ct_address, set_ct_kind, set_ct_secure, set_ct_src, set_ct_targ; cbn; rewrite ?orb_true_r, ?orb_false_r; reflexivity. }
  split.
  - intros H. destruct (cut " " data) as [[t r]|] eqn:C; [|unfold ctm_unmarshal in H; rewrite C in H; discriminate]. apply (merged_iff _ _ _ _ (M data t r C)) in H as (m0 & H & ->).
    apply first_cut in C. apply (cto dec o data t r); [exact C|now apply ctm_reads].
  - intros [data' t r m0 F H]. apply (first_cut " ") in F. apply (merged_iff _ _ _ _ (M data' t r F)). exists m0. split; [now apply ctm_reads|reflexivity].
Qed.

Lemma adcget_overs dec o data m : adcget_unmarshal dec o data = (m, Ok tt) <-> adcget_over dec o data m.
Proof.
  assert (FM : forall d x y, ag_type x = ag_type y -> ag_ident x = ag_ident y -> ag_start x = ag_start y -> ag_length x = ag_length y -> ag_compressed x = ag_compressed o -> ag_downloaded x = ag_downloaded o -> ag_compressed y = false -> ag_downloaded y = None ->
    merged (fun m => mk_adcget (ag_type m) (ag_ident m) (ag_start m) (ag_length m) (ag_compressed o || ag_compressed m) (match ag_downloaded m with Some n => Some n | None => ag_downloaded o end)) (adcget_flags (length d) x d) (adcget_flags (length d) y d)).
  { intros d x y E1 E2 E3 E4 E5 E6 E7 E8. split; [apply flags_snd|]. rewrite !flags_list by lia. intros H. destruct (flag_list x _) as [x' r] eqn:X. cbn in H. subst r. apply flag_list_ok in X as (z & db & F & ->).
    rewrite (proj2 (flag_list_ok (split_byte " " d) y _) (ex_intro _ z (ex_intro _ db (conj F eq_refl)))). cbn. rewrite E1, E2, E3, E4, E5, E6, E7, E8. destruct db; reflexivity. }
  assert (M : merged (fun m => mk_adcget (ag_type m) (ag_ident m) (ag_start m) (ag_length m) (ag_compressed o || ag_compressed m) (match ag_downloaded m with Some n => Some n | None => ag_downloaded o end)) (adcget_unmarshal dec o data) (adcget_unmarshal dec adcget0 data)).
  { unfold adcget_unmarshal. destruct (cut " " data) as [[t r]|]; [|fails]. destruct (string_unmarshal dec t); [|fails|fails]. cbv zeta. destruct (cut " " r) as [[i r2]|]; [|fails]. destruct (string_unmarshal dec i); [|fails|fails]. cbv zeta.
    destruct (cut " " r2) as [[s r3]|]; [|fails]. destruct (parse_uint_trim s); [|fails|fails]. cbv zeta. destruct (cut_or_all r3) as [ln r4]. destruct (bytes_eqb ln (B "-1")); [apply FM; reflexivity|]. destruct (parse_uint_trim ln); [apply FM; reflexivity|fails|fails]. }
  rewrite (merged_iff _ _ _ m M). split.
  - intros (m0 & H & ->). apply ago. now apply adcget_reads.
  - intros [data' m0 H]. exists m0. split; [now apply adcget_reads|reflexivity].
Qed.
Lemma adcsnd_overs dec o data m : adcsnd_unmarshal dec o data = (m, Ok tt) <-> adcsnd_over dec o data m.
Proof.
  assert (M : merged (fun m => mk_adcsnd (as_type m) (as_ident m) (as_start m) (as_length m) (as_compressed o || as_compressed m)) (adcsnd_unmarshal dec o data) (adcsnd_unmarshal dec adcsnd0 data)).
  { unfold adcsnd_unmarshal. destruct (cut " " data) as [[t r]|]; [|fails]. destruct (string_unmarshal dec t); [|fails|fails]. cbv zeta. destruct (cut " " r) as [[i r2]|]; [|fails]. destruct (string_unmarshal dec i); [|fails|fails]. cbv zeta.
    destruct (cut " " r2) as [[s r3]|]; [|fails]. destruct (parse_uint_trim s); [|fails|fails]. cbv zeta. destruct (cut_or_all r3) as [ln r4]. destruct (parse_uint_trim ln); [|fails|fails]. cbv zeta.
    destruct r4; [|destruct (bytes_eqb _ (B "ZL1")); [|fails]]; apply merged_ok; unfold set_as_compressed, set_as_length, set_as_start, set_as_ident, set_as_type; cbn; rewrite ?orb_true_r, ?orb_false_r; reflexivity. }
  rewrite (merged_iff _ _ _ m M). split.
  - intros (m0 & H & ->). apply aso. now apply adcsnd_reads.
  - intros [data' m0 H]. exists m0. split; [now apply adcsnd_reads|reflexivity].
Qed.

(** ** Hub information *)
Lemma software_over_iff o f s v : software_over o f (s, v) <-> last_cut " " f = Some (s, v) \/ last_cut " " f = None /\ (s, v) = (f, o).
Proof. unfold software_over. cbn [fst snd]. rewrite (last_cut_spec " " f s v), last_cut_none. reflexivity. Qed.
Definition field_over dec (n i : nat) (m : hubinfo) (f : bytes) (m1 : hubinfo) : Prop :=
  match i with
  | 7 => exists s v, software_over (hi_vers m) f (s, v) /\ m1 = set_hi_vers (set_hi_soft m s) v
  | _ => field_values dec n i m f m1
  end.
Lemma hubinfo_over_iff dec n i m f m1 : hubinfo_field dec n i m f = (m1, Ok tt) <-> field_over dec n i m f m1.
Proof.
  destruct i as [|[|[|[|[|[|[|[|[|[|[|i]]]]]]]]]]]; unfold field_over, field_values; cbn [hubinfo_field];
    try (split; [intros H; head_step H; injection H as <-; eauto|intros (x & H & ->); repeat back_step; reflexivity]);
    try (split; [intros [= <-]; reflexivity|intros ->; reflexivity]).
  split.
  - destruct (last_cut " " f) as [[s v]|] eqn:C; intros [= <-].
    + exists s, v. split; [apply software_over_iff; auto|reflexivity].
    + exists f, (hi_vers m). split; [apply software_over_iff; auto|]. reflexivity.
  - intros (s & v & H & ->). apply software_over_iff in H as [H|[H [= -> ->]]]; rewrite H; reflexivity.
Qed.
Lemma hubinfo_overs dec o data m : hubinfo_unmarshal dec o data = (m, Ok tt) <-> hubinfo_over dec o data m.
Proof.
  unfold hubinfo_unmarshal. destruct o as [o0 o1 o2 o3 o4 o5 o6 o7 o8 o9 o10 o11]. split.
  - intros H. cbv zeta in H. pose proof (proj2 (split_max_iff "$" 12 data _) eq_refl) as SM. set (fs := splitn_byte 13 "$" data) in *. clearbody fs.
    do 7 (destruct fs as [|? fs]; [injection H as <-; eapply hio; [exact SM|unfold field; cbn; first [reflexivity|eassumption]..]|];
      apply hubinfo_step in H as (? & F & H); apply hubinfo_over_iff in F; unfold field_over, field_values in F; first [destruct F as (? & ? & ->)|subst]).
    do 1 (destruct fs as [|? fs]; [injection H as <-; eapply hio; [exact SM|unfold field; cbn; first [reflexivity|eassumption]..]|];
      apply hubinfo_step in H as (? & F & H); apply hubinfo_over_iff in F; unfold field_over in F; destruct F as (? & ? & ? & ->)).
    do 2 (destruct fs as [|? fs]; [injection H as <-; eapply hio; [exact SM|unfold field; cbn; first [reflexivity|eassumption]..]|];
      apply hubinfo_step in H as (? & F & H); cbn [hubinfo_field] in F; head_step F; injection F as <-).
    destruct fs as [|f fs]; [injection H as <-; eapply hio; [exact SM|unfold field; cbn; first [reflexivity|eassumption]..]|].
    apply hubinfo_step in H as (? & F & H). cbn [hubinfo_field] in F. injection F as <-. rewrite hubinfo_late in H by lia. injection H as <-.
    destruct fs as [|f' fs]; cbn [length Nat.ltb Nat.leb]; (eapply hio; [exact SM|unfold field; cbn; first [reflexivity|eassumption]..]).
  - intros [data' fs name host desc i1 i2 i3 i4 soft vers owner state encoding SM H0 H1 H2 H3 H4 H5 H6 H7 H8 H9 H10].
    apply (split_max_iff "$" 12) in SM. rewrite <- SM. clear SM. cbv zeta.
    unfold field in *. set (n := length fs) in *. assert (En : n = length fs) by reflexivity. clearbody n.
    cbn [hi_name hi_host hi_desc hi_i1 hi_i2 hi_i3 hi_i4 hi_soft hi_vers hi_owner hi_state hi_encoding] in *.
    destruct fs as [|f0 fs]; [none H7|]. apply hubinfo_step. eexists. split; [apply hubinfo_over_iff; eexists; split; [exact H0|reflexivity]|]. cbn [nth_error] in *.
    destruct fs as [|f1 fs]; [none H7|]. apply hubinfo_step. eexists. split; [apply hubinfo_over_iff; reflexivity|]. cbn [nth_error] in *.
    destruct fs as [|f2 fs]; [none H7|]. apply hubinfo_step. eexists. split; [apply hubinfo_over_iff; eexists; split; [exact H2|reflexivity]|]. cbn [nth_error] in *.
    destruct fs as [|f3 fs]; [none H7|]. apply hubinfo_step. eexists. split; [apply hubinfo_over_iff; eexists; split; [exact H3|reflexivity]|]. cbn [nth_error] in *.
    destruct fs as [|f4 fs]; [none H7|]. apply hubinfo_step. eexists. split; [apply hubinfo_over_iff; eexists; split; [exact H4|reflexivity]|]. cbn [nth_error] in *.
    destruct fs as [|f5 fs]; [none H7|]. apply hubinfo_step. eexists. split; [apply hubinfo_over_iff; eexists; split; [exact H5|reflexivity]|]. cbn [nth_error] in *.
    destruct fs as [|f6 fs]; [none H7|]. apply hubinfo_step. eexists. split; [apply hubinfo_over_iff; eexists; split; [exact H6|reflexivity]|]. cbn [nth_error] in *.
    destruct fs as [|f7 fs]; [none H7|]. apply hubinfo_step. eexists. split; [apply hubinfo_over_iff; do 2 eexists; split; [exact H7|reflexivity]|]. cbn [nth_error] in *.
    destruct fs as [|f8 fs]; [none H7|]. apply hubinfo_step. eexists. split; [cbn [hubinfo_field]; repeat back_step; reflexivity|]. cbn [nth_error] in *.
    destruct fs as [|f9 fs]; [none H7|]. apply hubinfo_step. eexists. split; [cbn [hubinfo_field]; repeat back_step; reflexivity|]. cbn [nth_error] in *.
    destruct fs as [|f10 fs]; [none H7|]. apply hubinfo_step. eexists. split; [cbn [hubinfo_field]; reflexivity|]. cbn [nth_error] in *.
    rewrite hubinfo_late by lia. subst host. destruct (n <? 12); subst encoding; reflexivity.
Qed.

(** ** Search *)
(** What a search takes over from the old value, given the fields of its last part. *)
Definition keep_search (o : search) (hub nosize : bool) (m : search) : search :=
  mk_search (if hub then se_address o else se_address m) (if hub then se_user m else se_user o) (se_restricted m) (se_ismax m)
    (if nosize then se_size o else se_size m) (se_dtype m)
    (if N.eqb (se_dtype m) 9 then se_pattern o else se_pattern m) (if N.eqb (se_dtype m) 9 then se_tth m else se_tth o).
Lemma what_merged dec o x y f (hub nosize : bool) : x = mk_search (if hub then se_address o else se_address y) (if hub then se_user y else se_user o) (se_restricted y) (se_ismax y) (if nosize then se_size o else se_size y) (se_dtype y) (se_pattern o) (se_tth o) ->
  merged (keep_search o hub nosize) (search_what dec x f) (search_what dec y f).
Proof.
  intros ->. unfold search_what. cbn [se_dtype]. destruct (N.eqb_spec (se_dtype y) data_tth) as [E|N].
  - destruct (has_prefix (B "TTH:") f); [|fails]. cbv zeta. destruct (new_tth _) as [h [u|e|]]; [destruct u; apply merged_ok|fails|fails]. unfold keep_search, set_se_tth. cbn. rewrite E. reflexivity.
  - destruct (string_unmarshal dec f); [|fails|fails]. apply merged_ok. unfold keep_search, set_se_pattern. cbn. destruct (N.eqb_spec (se_dtype y) 9) as [E|_]; [contradiction|]. reflexivity.
Qed.
Lemma string_merged dec o x y r (hub nosize : bool) : x = mk_search (if hub then se_address o else se_address y) (if hub then se_user y else se_user o) (se_restricted o) (se_ismax o) (se_size o) (se_dtype o) (se_pattern o) (se_tth o) ->
  nosize = match splitn_byte 5 "?" r with [_; _; []; _; _] => true | _ => false end ->
  merged (keep_search o hub nosize) (search_string dec x r) (search_string dec y r).
Proof.
  intros -> ->. unfold search_string. destruct (splitn_byte 5 "?" r) as [|f0 [|f1 [|f2 [|f3 [|f4 [|? ?]]]]]]; try fails.
  destruct (unmarshal_flag f0); [|fails|fails]. destruct (unmarshal_flag f1); [|fails|fails]. cbv zeta. unfold search_size. destruct f2 as [|c f2].
  - destruct (parse_uint_trim f3); [|fails|fails]. apply what_merged. reflexivity.
  - destruct (beq c "-").
    + destruct (parse_uint_trim f2); [|fails|fails]. destruct (parse_uint_trim f3); [|fails|fails]. apply what_merged. reflexivity.
    + destruct (parse_uint_trim (c :: f2)); [|fails|fails]. destruct (parse_uint_trim f3); [|fails|fails]. apply what_merged. reflexivity.
Qed.
Lemma search_merged dec o data who r : cut " " data = Some (who, r) ->
  merged (keep_search o (has_prefix (B "Hub:") who) (match splitn_byte 5 "?" r with [_; _; []; _; _] => true | _ => false end)) (search_unmarshal dec o data) (search_unmarshal dec search0 data).
Proof.
  intros C. unfold search_unmarshal. rewrite C. destruct (has_prefix (B "Hub:") who).
  - destruct (name_unmarshal dec (skipn 4 who)); [|fails|fails]. apply string_merged; reflexivity.
  - apply string_merged; reflexivity.
Qed.
Lemma five rs mx f2 f3 f4 : ~ In "?"%byte f2 -> ~ In "?"%byte f3 ->
  splitn_byte 5 "?" (flag_text rs ++ B "?" ++ flag_text mx ++ B "?" ++ f2 ++ B "?" ++ f3 ++ B "?" ++ f4) = [flag_text rs; flag_text mx; f2; f3; f4].
Proof.
  intros N2 N3. change (flag_text rs ++ B "?" ++ flag_text mx ++ B "?" ++ f2 ++ B "?" ++ f3 ++ B "?" ++ f4) with (flag_text rs ++ "?"%byte :: flag_text mx ++ "?"%byte :: f2 ++ "?"%byte :: f3 ++ "?"%byte :: f4).
  assert (NF : forall b, ~ In "?"%byte (flag_text b)) by (intros []; intros [X|[]]; discriminate). cbn [splitn_byte].
  rewrite cut_app by apply NF. rewrite cut_app by apply NF. rewrite cut_app by exact N2. rewrite cut_app by exact N3. reflexivity.
Qed.
Lemma what_kept dec typ f pat tth : what_read dec typ f pat tth -> typ = 9%N /\ pat = [] \/ typ <> 9%N /\ tth = None.
Proof. intros []; auto. Qed.
Lemma search_overs dec o data m : search_unmarshal dec o data = (m, Ok tt) <-> search_over dec o data m.
Proof.
  split.
  - intros H. destruct (cut " " data) as [[who r]|] eqn:C; [|unfold search_unmarshal in H; rewrite C in H; discriminate]. destruct (proj1 (merged_iff _ _ _ m (search_merged dec o data who r C)) H) as (m0 & H0 & Em0). rewrite Em0. clear H Em0 m. rename H0 into H.
    apply search_reads in H. inversion H as [data' who' r' f2 f3 f4 addr user rs rs' mx size typ pat tth F Who Er N2 N3 SR U W Ed Em]. subst data' m0. assert (F' := proj2 (first_cut " " _ _ _) F). rewrite C in F'. injection F' as <- <-. subst r.
    rewrite five by assumption. unfold keep_search. cbn [se_address se_user se_restricted se_ismax se_size se_dtype se_pattern se_tth].
    eapply (so_search dec o data who); [exact F| |reflexivity|exact N2|exact N3| |exact U|exact W|].
    + destruct Who as [(n & -> & Hn & ->)|(Nw & -> & ->)]; [left; exists n; rewrite has_prefix_app; auto|right]. destruct (has_prefix (B "Hub:") who) eqn:P; [apply has_prefix_spec in P; contradiction|auto].
    + destruct f2 as [|c f2]; [left; inversion SR; subst; auto|right; split; [discriminate|exact SR]].
    + destruct (N.eqb_spec typ 9); auto.
  - intros [data' who r f2 f3 f4 addr user rs rs' mx size typ pat tth pat' tth' F Who -> N2 N3 SR U W K]. apply (first_cut " ") in F as F'. apply (merged_iff _ _ _ _ (search_merged dec o data' _ _ F')).
    exists (mk_search (if has_prefix (B "Hub:") who then [] else addr) (if has_prefix (B "Hub:") who then user else []) rs' mx (match f2 with [] => 0%N | _ => size end) typ pat' tth'). split.
    + apply search_reads. eapply sr_search; [exact F| |reflexivity|exact N2|exact N3| |exact U|exact W].
      * destruct Who as [(n & -> & Hn & ->)|(Nw & -> & ->)]; [left; exists n; rewrite has_prefix_app; auto|right]. destruct (has_prefix (B "Hub:") who) eqn:P; [apply has_prefix_spec in P; contradiction|auto].
      * destruct SR as [(-> & -> & _)|[Nf SR]]; [constructor|]. destruct f2; [contradiction|exact SR].
    + rewrite five by assumption. unfold keep_search. cbn [se_address se_user se_restricted se_ismax se_size se_dtype se_pattern se_tth]. f_equal.
      * destruct Who as [(n & -> & Hn & ->)|(Nw & -> & ->)]; [rewrite has_prefix_app; auto|]. destruct (has_prefix (B "Hub:") who) eqn:P; [apply has_prefix_spec in P; contradiction|auto].
      * destruct Who as [(n & -> & Hn & ->)|(Nw & -> & ->)]; [rewrite has_prefix_app; auto|]. destruct (has_prefix (B "Hub:") who) eqn:P; [apply has_prefix_spec in P; contradiction|auto].
      * destruct SR as [(-> & _ & ->)|[Nf SR]]; [reflexivity|]. destruct f2; [contradiction|reflexivity].
      * destruct K as [(-> & -> & _)|(Nt & -> & _)]; [reflexivity|]. destruct (N.eqb_spec typ 9); [contradiction|reflexivity].
      * destruct K as [(-> & _ & ->)|(Nt & _ & ->)]; [reflexivity|]. destruct (N.eqb_spec typ 9); [contradiction|reflexivity].
Qed.

(** ** Results *)
Lemma tail_over dec m s m' : sr_tail dec m s = (m', Ok tt) <->
  exists addr r to, first (B ")") s addr r /\ target_read dec r to /\
    m' = mk_sr (sr_from m) (sr_path m) (sr_isdir m) (sr_size m) (sr_free m) (sr_total m) (sr_hubname m) (sr_tth m) addr (match r with [] => sr_to m | _ => to end).
Proof.
  split.
  - intros H. unfold sr_tail in H. head_step H. cbv zeta in H. destruct l0 as [|c [|c' l0]]; [|discriminate|].
    + injection H as <-. exists l, [], []. split; [exact E|]. split; [constructor|reflexivity].
    + destruct (beq_spec c sr_sep) as [->|]; [|discriminate]. head_step H. injection H as <-. exists l, (sr_sep :: c' :: l0), a. split; [exact E|]. split; [|reflexivity].
      apply tr_some; [discriminate|exact E0].
  - intros (addr & r & to & F & T & ->). unfold sr_tail. repeat back_step. destruct T as [|n to Nn Hn].
    + reflexivity.
    + destruct n as [|c n]; [contradiction|]. change (beq x05 sr_sep) with true. cbv iota. repeat back_step. reflexivity.
Qed.
Lemma hub_over dec m s m' : sr_hub dec m s = (m', Ok tt) <->
  exists hub tth rest addr r to, hub_read dec s hub tth rest /\ first (B ")") rest addr r /\ target_read dec r to /\
    m' = mk_sr (sr_from m) (sr_path m) (sr_isdir m) (sr_size m) (sr_free m) (sr_total m) (match tth with Some _ => sr_hubname m | None => hub end) (match tth with Some h => Some h | None => sr_tth m end)
      addr (match r with [] => sr_to m | _ => to end).
Proof.
  unfold sr_hub. destruct (has_prefix (B "TTH:") s) eqn:P.
  - apply has_prefix_spec in P as [d ->]. change (skipn 4 (B "TTH:" ++ d)) with d. cbv zeta. split.
    + intros H. destruct (has_prefix (B " (") (skipn base32_size d)) eqn:Q; [|discriminate]. apply has_prefix_spec in Q as [rest Er].
      destruct (new_tth (firstn base32_size d)) as [h r] eqn:N. destruct r as [[]|e|]; try discriminate. apply tth_iff in N.
      replace (skipn (base32_size + 2) d) with rest in H.
      2: { assert (E2 : forall n k (x : bytes), skipn n (skipn k x) = skipn (k + n) x) by (clear; intros n k; induction k as [|k IH]; intros [|c x]; cbn; [reflexivity..|destruct n; reflexivity|apply IH]). rewrite <- E2, Er. reflexivity. }
      apply tail_over in H as (addr & r & to & F & T & ->). cbn.
      exists [], (Some h), rest, addr, r, to. split; [|auto].
      rewrite <- (firstn_skipn base32_size d), Er. apply hbr_hash; [|exact N]. apply firstn_length_le.
      assert (L : length (skipn base32_size d) = 2 + length rest) by (rewrite Er; reflexivity). rewrite skipn_length in L. change base32_size with 39 in *. lia.
    + intros (hub & tth & rest & addr & r & to & Hr & F & T & ->). remember (B "TTH:" ++ d) as x eqn:Ex. destruct Hr as [t h rest L Hh|s n rest hub Ns _ _].
      * apply app_inv_head in Ex as <-. change base32_size with 39 in *. rewrite <- L.
        rewrite skipn_app_exact, firstn_app_exact. rewrite has_prefix_app. rewrite (proj2 (tth_iff t h) Hh).
        replace (skipn (length t + 2) (t ++ B " (" ++ rest)) with rest by (rewrite app_assoc; replace (length t + 2) with (length (t ++ B " (")) by (rewrite app_length; reflexivity); now rewrite skipn_app_exact).
        apply tail_over. exists addr, r, to. auto.
      * exfalso. apply Ns. exists d. exact Ex.
  - split.
    + intros H. head_step H. head_step H. apply tail_over in H as (addr & r & to & F & T & ->). cbn.
      exists a, None, l0, addr, r, to. split; [|auto]. apply hbr_name with l; [|exact E|exact E0]. intros [x ->]. rewrite has_prefix_app in P. discriminate.
    + intros (hub & tth & rest & addr & r & to & Hr & F & T & ->). destruct Hr as [t h rest L Hh|s n rest hub Ns Hf Hs]; [rewrite has_prefix_app in P; discriminate|].
      repeat back_step. apply tail_over. exists addr, r, to. auto.
Qed.
Lemma slots_over dec m p slots s m' : sr_slots dec m p slots s = (m', Ok tt) <->
  exists path f t free total hub tth rest addr r to, path_read dec p path /\ first (B "/") slots f t /\ int_read f free /\ int_read t total /\
    hub_read dec s hub tth rest /\ first (B ")") rest addr r /\ target_read dec r to /\
    m' = mk_sr (sr_from m) path (sr_isdir m) (sr_size m) free total (match tth with Some _ => sr_hubname m | None => hub end) (match tth with Some h => Some h | None => sr_tth m end)
      addr (match r with [] => sr_to m | _ => to end).
Proof.
  split.
  - intros H. unfold sr_slots in H. do 4 head_step H. cbv zeta in H.
    apply hub_over in H as (hub & tth & rest & addr & r & to & Hr & F & T & ->). cbn.
    exists (split_byte "\" p), l, l0, a0, a1, hub, tth, rest, addr, r, to. split; [|auto 10]. split; [eauto|]. now apply (split_on_byte "\").
  - intros (path & f & t & free & total & hub & tth & rest & addr & r & to & ([u Hp] & Sp) & F & Hf & Ht & Hr & Fr & T & ->).
    unfold sr_slots. repeat back_step. apply hub_over. rewrite (proj1 (split_on_byte "\" p path) Sp).
    exists hub, tth, rest, addr, r, to. cbn. auto.
Qed.
Lemma sr_overs dec o data m : sr_unmarshal dec o data = (m, Ok tt) <-> sr_over dec o data m.
Proof.
  assert (PR : forall (hub : bytes) (tth : option bytes) x y, (match tth with Some _ => x | None => hub end, match tth with Some h => Some h | None => y end) = match tth with Some h => (x, Some h) | None => (hub, y) end) by (intros hub [h|] x y; reflexivity).
  split.
  - intros H. unfold sr_unmarshal in H. do 3 head_step H. cbv zeta in H.
    destruct (sr_scan (rev l1) false []) as [b oo] eqn:SC.
    assert (C : (exists p sl, b = true /\ oo = Some (p, sl)) \/ (forall p sl, (b, oo) <> (true, Some (p, sl)))).
    { destruct b, oo as [[p sl]|]; [left; eauto|right; discriminate..]. }
    destruct C as [(p & sl & -> & ->)|C].
    + apply scan_iff in SC as (c & -> & Nc & Fs & I).
      apply slots_over in H as (path & f & t & free & total & hub & tth & rest & addr & r & to & Hp & F & Hf & Ht & Hr & Fr & T & ->). cbn.
      eapply sro with (isdir := true); [exact E|exact E0|exact E1| |exact Hp|exact F|exact Hf|exact Ht|exact Hr|apply PR|exact Fr|exact T|reflexivity].
      left. eauto 10.
    + assert (H' : (let m0 := set_sr_isdir (set_sr_from o a) false in
        match cut sr_sep l2 with
        | None => (m0, Err (EText "invalid SR command: missing size"))
        | Some (sizeslots, data0) =>
            match cut " " sizeslots with
            | None => (m0, Err (EText "invalid SR command: missing size separator"))
            | Some (size, slots) => match parse_uint_trim size with Ok n => sr_slots dec (set_sr_size m0 n) l1 slots data0 | Err e => (set_sr_size m0 0, Err e) | Panic => (set_sr_size m0 0, Panic) end
            end
        end) = (m, Ok tt)) by (destruct b, oo as [[? ?]|]; [exfalso; eapply C; reflexivity|exact H..]).
      clear H. do 3 head_step H'.
      apply slots_over in H' as (path & f & t & free & total & hub & tth & rest & addr & r & to & Hp & F & Hf & Ht & Hr & Fr & T & ->). cbn.
      eapply sro with (isdir := false); [exact E|exact E0|exact E1| |exact Hp|exact F|exact Hf|exact Ht|exact Hr|apply PR|exact Fr|exact T|reflexivity].
      right. split; [reflexivity|]. split; [apply scan_none; intros p sl; rewrite SC; apply C|]. split; [reflexivity|]. eauto 10.
  - intros [data' n r1 x r2 from p path isdir size slots r3 f t free total hub tth rest addr r4 to hub' tth' to' F1 Hn F2 K Hp F3 Hf Ht Hr HT F4 T ->].
    rewrite <- PR in HT. injection HT as -> ->.
    unfold sr_unmarshal. change sr_sep with x05. repeat back_step. destruct K as [(-> & -> & -> & K)|(-> & K & -> & ss & s & F5 & F6 & U)].
    + rewrite (proj2 (scan_iff x p slots) K). apply slots_over. cbn. do 11 eexists. repeat (split; [eassumption|]). reflexivity.
    + pose proof (proj2 (scan_none x) K) as SN. destruct (sr_scan (rev x) false []) as [b oo].
      match goal with |- _ = (?res, _) => assert (G' : sr_slots dec (set_sr_size (set_sr_isdir (set_sr_from o from) false) size) x slots r3 = (res, Ok tt)) end.
      { apply slots_over. cbn. do 11 eexists. repeat (split; [eassumption|]). reflexivity. }
      destruct b, oo as [[? ?]|]; [exfalso; eapply SN; reflexivity|repeat back_step; exact G'..].
Qed.

(** ** User information *)
Lemma desc_over dec m f0 m' hastag :
  (myinfo_desc dec m f0 = (m', Ok hastag) <->
   exists desc client version mode hn hr ho slots extra,
    m' = mk_myinfo (mi_name m) desc client version mode hn hr ho slots extra (mi_conn m) (mi_flag m) (mi_email m) (mi_share m) /\
    (hastag = false /\ ~ In "<"%byte f0 /\ str_read dec f0 desc /\ mode = x00 /\ client = mi_client m /\ version = mi_version m /\ (hn, hr, ho, slots) = (mi_hubs_normal m, mi_hubs_reg m, mi_hubs_op m, mi_slots m) /\ extra = mi_extra m \/
     hastag = true /\ exists d tag tag' c t fs is, f0 = d ++ B "<" ++ tag /\ ~ In "<"%byte tag /\ tag <> [] /\ str_read dec d desc /\
       without_suffix (B ">") tag tag' /\ tag_split tag' c t /\ split_on (B ",") t fs /\ items_read true fs is /\
       client = last_of sel_client c is /\ version = last_of sel_version (mi_version m) is /\ mode = last_of sel_mode x00 is /\
       hn = last_of sel_normal (mi_hubs_normal m) is /\ hr = last_of sel_reg (mi_hubs_reg m) is /\ ho = last_of sel_op (mi_hubs_op m) is /\
       slots = last_of sel_slots (mi_slots m) is /\ extra = fold_left set_extra_item is [])).
Proof.
  unfold myinfo_desc. cbv zeta. destruct (last_cut "<" f0) as [[d tag]|] eqn:C.
  - apply last_cut_spec in C as [E N]. split.
    + intros H. destruct tag as [|t0 tag0]; [discriminate|]. remember (t0 :: tag0) as tag eqn:Et. assert (Nt : tag <> []) by (subst; discriminate). clear Et t0 tag0.
      unfold unmarshal_tag in H. destruct (match cut_seq (B " V:") _ with Some _ => _ | None => _ end) as [c t] eqn:Ts. apply tag_split_iff in Ts.
      destruct (tag_fields _ c true (split_byte "," t)) as [[m1 cl] [[]|e|]] eqn:Tf; try discriminate. apply fields_iff in Tf as (is & Is & -> & ->). rewrite fold_items, fold_client in H.
      head_step H. injection H as <- <-. unfold set_mi_desc, set_mi_client, set_mi_extra, set_mi_mode. cbn.
      do 9 eexists. split; [reflexivity|]. right. split; [reflexivity|]. exists d, tag, (if last_is ">" tag then drop_last tag else tag), c, t, (split_byte "," t), is.
      split; [exact E|]. split; [exact N|]. split; [exact Nt|]. split; [exact E0|]. split; [now apply closing_tag|]. split; [exact Ts|]. split; [now apply (split_on_byte ",")|]. split; [exact Is|]. repeat split; reflexivity.
    + intros (desc & client & version & mode & hn & hr & ho & slots & extra & -> & [(_ & No & _)|(-> & d' & tag' & tag2 & c & t & fs & is & Ef & Nl & Nt & Sd & W & Ts & Sp & Is & -> & -> & -> & -> & -> & -> & -> & ->)]).
      * exfalso. apply No. rewrite E. apply in_app_iff. right. now left.
      * assert (X : last_cut "<" f0 = Some (d, tag)) by now apply last_cut_spec. assert (Y : last_cut "<" f0 = Some (d', tag')) by now apply last_cut_spec. rewrite X in Y. injection Y as <- <-.
        apply closing_tag in W. destruct tag as [|t0 tag]; [contradiction|]. rewrite <- W. unfold unmarshal_tag. apply tag_split_iff in Ts. rewrite Ts.
        rewrite <- (proj1 (split_on_byte "," t fs) Sp). rewrite (proj2 (fields_iff fs (set_mi_extra (set_mi_mode m x00) []) c true _ _) (ex_intro _ is (conj Is (conj eq_refl eq_refl)))).
        rewrite fold_items, fold_client. cbn. repeat back_step. reflexivity.
  - apply last_cut_none in C. split.
    + intros H. head_step H. injection H as <- <-. unfold set_mi_desc, set_mi_mode. cbn. do 9 eexists. split; [reflexivity|]. left. split; [reflexivity|]. split; [exact C|]. split; [exact E|]. auto.
    + intros (desc & client & version & mode & hn & hr & ho & slots & extra & -> & [(-> & _ & Sd & -> & -> & -> & [= -> -> -> ->] & ->)|(-> & d' & tag' & tag2 & c & t & fs & is & Ef & _)]).
      * repeat back_step. reflexivity.
      * exfalso. apply C. rewrite Ef. apply in_app_iff. right. now left.
Qed.
Definition share_over (old : N) (f4 : bytes) (share : N) : Prop :=
  f4 = [] /\ share = old \/ f4 <> [] /\ (uint_read f4 share \/ (forall k, ~ uint_read f4 k) /\ share = 0%N).
Lemma end_over dec m f3 f4 m' : myinfo_end dec m f3 f4 = (m', Ok tt) <->
  exists email share, str_read dec f3 email /\ share_over (mi_share m) f4 share /\ m' = set_mi_share (set_mi_email m email) share.
Proof.
  unfold myinfo_end, share_over. split.
  - intros H. head_step H. cbv zeta in H. destruct f4 as [|c f4].
    + injection H as <-. exists a, (mi_share m). split; [exact E|]. split; [auto|reflexivity].
    + injection H as <-. exists a, (match parse_uint_trim (c :: f4) with Ok n => n | _ => 0%N end). split; [exact E|]. split; [|reflexivity]. right. split; [discriminate|].
      destruct (parse_uint_trim (c :: f4)) as [n|e|] eqn:U; [left; now apply uint_iff|right; split; [|reflexivity]; intros k U'; apply uint_iff in U'; congruence..].
  - intros (email & share & He & Hs & ->). repeat back_step. destruct f4 as [|c f4].
    + destruct Hs as [[_ ->]|[X _]]; [reflexivity|contradiction].
    + destruct Hs as [[X _]|[_ Hs]]; [discriminate|]. destruct Hs as [U|[U ->]]; [now rewrite (proj2 (uint_iff _ _) U)|]. destruct (parse_uint_trim (c :: f4)) as [n|e|] eqn:P; [|reflexivity..]. exfalso. apply (U n). now apply uint_iff.
Qed.
Lemma rest_over dec m hastag f1 f2 f3 f4 m' : myinfo_rest dec m hastag f1 f2 f3 f4 = (m', Ok tt) <->
  exists md conn flag email share, f1 = [md] /\ (f2 = [] /\ flag = mi_flag m /\ conn = mi_conn m \/ exists c, f2 = c ++ [flag] /\ str_read dec c conn) /\
    str_read dec f3 email /\ share_over (mi_share m) f4 share /\
    m' = mk_myinfo (mi_name m) (mi_desc m) (mi_client m) (mi_version m) (if hastag then mi_mode m else if beq md " " then x00 else md)
      (mi_hubs_normal m) (mi_hubs_reg m) (mi_hubs_op m) (mi_slots m) (mi_extra m) conn flag email share.
Proof.
  unfold myinfo_rest. split.
  - intros H. destruct f1 as [|md [|]]; try discriminate. cbv zeta in H. exists md. destruct f2 as [|fl c _] using rev_ind.
    + cbn [rev] in H. apply end_over in H as (email & share & He & Hs & ->). exists (mi_conn m), (mi_flag m), email, share. split; [reflexivity|]. split; [auto|]. split; [exact He|]. destruct hastag; (split; [exact Hs|reflexivity]).
    + rewrite rev_app_distr in H. cbn [rev app] in H. rewrite drop_last_app in H. head_step H. apply end_over in H as (email & share & He & Hs & ->).
      exists a, fl, email, share. split; [reflexivity|]. split; [right; eauto|]. split; [exact He|]. destruct hastag; (split; [exact Hs|reflexivity]).
  - intros (md & conn & flag & email & share & -> & Hc & He & Hs & ->). destruct Hc as [(-> & -> & ->)|(c & -> & Hc)].
    + cbn [rev]. apply end_over. exists email, share. split; [exact He|]. destruct hastag; (split; [exact Hs|reflexivity]).
    + rewrite rev_app_distr. cbn [rev app]. rewrite drop_last_app. repeat back_step. apply end_over. exists email, share. split; [exact He|]. destruct hastag; (split; [exact Hs|reflexivity]).
Qed.
Lemma myinfo_over_iff dec o data m : myinfo_unmarshal dec o data = (m, Ok tt) <->
  exists n name r f0 f1 f2 f3 f4 f5 m1 hastag, data = B "$ALL " ++ n ++ B " " ++ r /\ ~ In " "%byte n /\ name_read dec n name /\
    split_byte "$" r = [f0; f1; f2; f3; f4; f5] /\ myinfo_desc dec (set_mi_name o name) f0 = (m1, Ok hastag) /\ myinfo_rest dec m1 hastag f1 f2 f3 f4 = (m, Ok tt).
Proof.
  unfold myinfo_unmarshal. split.
  - intros H. destruct (has_prefix (B "$ALL ") data) eqn:P; [|discriminate]. apply has_prefix_spec in P as [d ->]. change (skipn 5 (B "$ALL " ++ d)) with d in H.
    destruct (cut " " d) as [[n r]|] eqn:C; [|discriminate]. apply cut_spec in C as [-> N]. head_step H. cbv zeta in H.
    destruct (split_byte "$" r) as [|f0 [|f1 [|f2 [|f3 [|f4 [|f5 [|]]]]]]] eqn:Sp; try discriminate. destruct (myinfo_desc _ _ _) as [m1 [h|e|]] eqn:D; try discriminate.
    exists n, a, r, f0, f1, f2, f3, f4, f5, m1, h. auto 10.
  - intros (n & name & r & f0 & f1 & f2 & f3 & f4 & f5 & m1 & h & -> & N & Hn & Sp & D & R). rewrite has_prefix_app. change (skipn 5 (B "$ALL " ++ n ++ B " " ++ r)) with (n ++ " "%byte :: r).
    rewrite cut_app by exact N. repeat back_step. rewrite Sp, D. exact R.
Qed.
Lemma myinfo_overs dec o data m : myinfo_unmarshal dec o data = (m, Ok tt) -> myinfo_over dec o data m.
Proof.
  intros H. apply myinfo_over_iff in H as (n & name & r & f0 & f1 & f2 & f3 & f4 & f5 & m1 & h & -> & N & Hn & Sp & D & R).
  apply six_fields in Sp as [-> F]. apply desc_over in D. destruct D as (desc & client & version & mode & hn & hr & ho & slots & extra & -> & D).
  apply rest_over in R. destruct R as (md & conn & flag & email & share & -> & Hc & He & Hs & ->). cbn in *.
  apply mio; [exact N|exact Hn|exact F| |exact Hc|exact He|exact Hs].
  destruct D as [(-> & No & Sd & -> & -> & -> & [= -> -> -> ->] & ->)|(-> & d & tag & tag' & c & t & fs & is & Ef & Nl & Nt & Sd & W & Ts & Sp & Is & -> & -> & -> & -> & -> & -> & -> & ->)].
  - left. auto 10.
  - right. exists d, tag, tag', c, t, fs, is. do 15 (split; [first [assumption|reflexivity]|]). apply extras_fold.
Qed.
Lemma myinfo_overs_back dec o data m : myinfo_over dec o data m -> exists m', myinfo_unmarshal dec o data = (m', Ok tt) /\ myinfo_alike m' m.
Proof.
  intros [n f0 md f2 f3 f4 f5 name desc client version mode hn hr ho slots extra conn flag email share N Hn F D Hc He Hs].
  destruct D as [(No & Sd & -> & -> & -> & [= -> -> -> ->] & ->)|(d & tag & tag' & c & t & fs & is & Ef & Nl & Nt & Sd & W & Ts & Sp & Is & -> & -> & -> & -> & -> & -> & -> & Hx)].
  - eexists. split.
    + apply myinfo_over_iff. exists n, name, (sep_by (B "$") [f0; [md]; f2; f3; f4; f5]), f0, [md], f2, f3, f4, f5. do 2 eexists.
      split; [reflexivity|]. split; [exact N|]. split; [exact Hn|]. split; [now apply six_fields|]. split.
      * apply desc_over. do 9 eexists. split; [reflexivity|]. left. split; [reflexivity|]. split; [exact No|]. split; [exact Sd|]. auto.
      * apply rest_over. exists md, conn, flag, email, share. cbn. split; [reflexivity|]. split; [exact Hc|]. split; [exact He|]. split; [exact Hs|]. reflexivity.
    + split; reflexivity.
  - eexists. split.
    + apply myinfo_over_iff. exists n, name, (sep_by (B "$") [f0; [md]; f2; f3; f4; f5]), f0, [md], f2, f3, f4, f5. do 2 eexists.
      split; [reflexivity|]. split; [exact N|]. split; [exact Hn|]. split; [now apply six_fields|]. split.
      * apply desc_over. do 9 eexists. split; [reflexivity|]. right. split; [reflexivity|]. exists d, tag, tag', c, t, fs, is. do 8 (split; [eassumption|]). repeat split; reflexivity.
      * apply rest_over. exists md, conn, flag, email, share. cbn. split; [reflexivity|]. split; [exact Hc|]. split; [exact He|]. split; [exact Hs|]. reflexivity.
    + split; [reflexivity|]. cbn. apply (extras_unique is); [apply extras_fold|exact Hx].
Qed.

(** ** All messages *)
Lemma kind_new m : (forall t d, m <> MRaw t d) -> same_kind m (new_message (msg_type m)).
Proof. intros N. destruct m; first [exfalso; eapply N; reflexivity|exact Logic.I|destruct k; reflexivity]. Qed.
Lemma unmarshal_kind dec m data : same_kind m (fst (msg_unmarshal dec m data)).
Proof. destruct m; reflexivity || exact Logic.I. Qed.
Lemma kind_type a b : same_kind a b -> msg_type a = msg_type b.
Proof. destruct a, b; cbn; intros H; try contradiction; try reflexivity; try (now rewrite H). Qed.
Lemma other_types dec o data m : sized o -> sets_all o -> (forall t d, o <> MRaw t d) ->
  msg_unmarshal dec o data = (m, Ok tt) <-> msg_unmarshal dec (new_message (msg_type o)) data = (m, Ok tt).
Proof.
  intros Z A N. destruct (new_message_cleared (msg_type o)) as [C' S']. assert (C : cleared o) by (destruct o; cbn in A |- *; tauto).
  destruct (reuse_cleared dec o _ data (kind_new o N) Z S' C C') as [E H]. destruct (msg_unmarshal dec o data) as [m1 r1], (msg_unmarshal dec (new_message _) data) as [m2 r2]. cbn in E, H. subst r2.
  split; intros [= -> ->]; [rewrite <- (H eq_refl)|rewrite (H eq_refl)]; reflexivity.
Qed.
Lemma decoded_over dec o data m : sized o -> msg_unmarshal dec o data = (m, Ok tt) -> reads_over dec o data m.
Proof.
  intros Z H.
  assert (X : sets_all o -> (forall t d, o <> MRaw t d) -> reads_over dec o data m).
  { intros A N. apply ro_other; [exact A|exact N| |].
    - pose proof (unmarshal_kind dec o data) as K. now rewrite H in K.
    - apply other_types in H; [|exact Z|exact A|exact N]. now apply decoded_reads in H. }
  destruct o; try (apply X; [exact Logic.I|discriminate]); clear X; cbn [msg_unmarshal] in H; try (apply lift_ok in H as (x & H & ->)).
  - now apply ro_err, err_overs.
  - now apply ro_chat, chat_overs.
  - now apply ro_ucmd, ucmd_overs.
  - now apply ro_ctm, ctm_overs.
  - now apply ro_adcget, adcget_overs.
  - now apply ro_adcsnd, adcsnd_overs.
  - now apply ro_hubinfo, hubinfo_overs.
  - now apply ro_search, search_overs.
  - now apply ro_sr, sr_overs.
  - now apply ro_myinfo, myinfo_overs.
  - injection H as <-. apply ro_raw.
Qed.
Lemma over_decoded dec o data m : sized o -> reads_over dec o data m -> exists m', msg_unmarshal dec o data = (m', Ok tt) /\ msg_alike m' m.
Proof.
  assert (K : forall A (c : A -> msg) x p, p = (x, Ok tt) -> exists m', lift c p = (m', Ok tt) /\ msg_alike m' (c x)) by (intros A c x p ->; eexists; split; [reflexivity|now left]).
  intros Z H. destruct H; cbn [msg_unmarshal].
  - now apply K, err_overs.
  - now apply K, chat_overs.
  - now apply K, ucmd_overs.
  - now apply K, ctm_overs.
  - now apply K, adcget_overs.
  - now apply K, adcsnd_overs.
  - now apply K, hubinfo_overs.
  - now apply K, search_overs.
  - now apply K, sr_overs.
  - apply myinfo_overs_back in H as (m' & H & A). exists (MMyInfo m'). split; [apply lift_ok; eauto|right; eauto].
  - eexists. split; [reflexivity|now left].
  - apply reads_decoded in H2 as (m' & D & A). exists m'. split; [|exact A]. apply kind_type in H1. rewrite <- H1 in D. now apply other_types.
Qed.
Lemma alike_sym a b : msg_alike a b -> msg_alike b a.
Proof.
  intros [->|(x & y & -> & -> & E & P)]; [now left|]. right. exists y, x. split; [reflexivity|]. split; [reflexivity|]. split; [rewrite E; destruct x; reflexivity|now apply Permutation_sym].
Qed.
Lemma over_unique dec o data m m' : sized o -> reads_over dec o data m -> reads_over dec o data m' -> msg_alike m m'.
Proof.
  intros Z H H'. apply over_decoded in H as (x & D & A); [|exact Z]. apply over_decoded in H' as (x' & D' & A'); [|exact Z]. rewrite D' in D. injection D as ->. now apply (alike_trans x).
Qed.
Lemma extras_perm is e e' : extras_read is e -> Permutation e e' -> extras_read is e'.
Proof.
  intros [N H] P. split; [eapply Permutation_NoDup; [apply Permutation_map, P|exact N]|]. intros k v. rewrite <- H. split; apply Permutation_in; [now apply Permutation_sym|exact P].
Qed.
Lemma reads_alike dec data a b : msg_alike a b -> SpecRead.reads dec data a -> SpecRead.reads dec data b.
Proof.
  intros [->|(x & y & -> & -> & E & P)] H; [exact H|]. inversion H as [| | | | | | | | | | | | | | | | | | | | | | | |d m R Ed Em|]. subst d m. apply rd_myinfo.
  destruct R as [n f0 md f2 f3 f4 f5 name desc client version mode hn hr ho slots extra conn flag email share N Hn F D Hc He Hs]. cbn in E, P. rewrite E. apply mir; try assumption.
  destruct D as [(No & Sd & -> & -> & -> & Ez & ->)|(d & tag & tag' & c & t & fs & is & Ef & Nl & Nt & Sd & W & Ts & Sp & Is & -> & -> & -> & -> & -> & -> & -> & Hx)].
  - left. apply Permutation_nil in P. auto 10.
  - right. exists d, tag, tag', c, t, fs, is. do 15 (split; [first [assumption|reflexivity]|]). now apply (extras_perm is extra).
Qed.
Lemma over_fresh dec t data m : reads_over dec (new_message t) data m <-> msg_type m = t /\ SpecRead.reads dec data m.
Proof.
  destruct (new_message_cleared t) as [_ Z]. split.
  - intros H. apply over_decoded in H as (m' & D & A); [|exact Z]. apply decoded_reads in D as [T R]. split; [|now apply (reads_alike dec data m')].
    destruct A as [->|(x & y & -> & -> & _)]; [exact T|exact T].
  - intros [<- R]. apply reads_decoded in R as (m' & D & A). pose proof D as D'. apply decoded_over in D; [|exact Z]. destruct A as [->|(x & y & -> & -> & E & P)]; [exact D|].
    change (new_message (msg_type (MMyInfo y))) with (MMyInfo myinfo0) in *. inversion D as [| | | | | | | | |o' d m R Eo Ed Em| |? ? ? X]; [|destruct X]. subst o' d m. apply ro_myinfo.
    destruct R as [n f0 md f2 f3 f4 f5 name desc client version mode hn hr ho slots extra conn flag email share N Hn F DD Hc He Hs]. cbn in E, P. rewrite E. apply mio; try assumption.
    destruct DD as [(No & Sd & -> & -> & -> & Ez & ->)|(d & tag & tag' & c & t & fs & is & Ef & Nl & Nt & Sd & W & Ts & Sp & Is & -> & -> & -> & -> & -> & -> & -> & Hx)].
    + left. cbn in P. apply Permutation_nil in P. rewrite P. auto 10.
    + right. exists d, tag, tag', c, t, fs, is. do 15 (split; [first [assumption|reflexivity]|]). now apply (extras_perm is extra).
Qed.
