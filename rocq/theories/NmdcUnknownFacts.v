(** When decoding reports an unknown encoding. *)
From Verif Require Import Base BaseFacts Num NumFacts NumSpec Utf8 Utf8Facts SpecText SpecHash SpecNmdc SpecRead HtmlReadFacts SpecFrame SpecReuse SpecStream NmdcText NmdcTextFacts.
From Verif Require Import NmdcChat NmdcHub NmdcFiles NmdcUser NmdcMessage Tiger TigerFacts NmdcChatFacts NmdcReuseFacts NmdcReadFacts NmdcReadChat NmdcReadCmd NmdcReadFiles NmdcReadHub NmdcReadUser NmdcReadMsg.
From Verif Require Import NmdcDecodeFacts NmdcCrashFacts NmdcOverFacts NmdcRetryFacts SpecNmdcLeft NmdcLeftFacts SpecNmdcUnknown.

(** ** Values *)
Lemma text_unk dec raw t : text_unmarshal dec raw = Err (EUnknownEnc t) <-> text_unknown dec raw t.
Proof.
  unfold text_unmarshal, text_unknown. split.
  - intros E. exists (unescape_bytes raw). split; [now apply unescaped_iff|]. destruct (run_codec dec (unescape_bytes raw)) as [w|e|] eqn:R; cbn [bind] in E.
    + destruct (utf8_valid w) eqn:V; [discriminate|]. injection E as <-. rewrite utf8_text_iff, encodes_to_run. split; congruence.
    + exfalso. destruct dec as [f|]; cbn in R; [|discriminate]. destruct (f _); [discriminate|]. congruence.
    + discriminate.
  - intros (u & U & E & N). apply unescaped_iff in U as ->. apply encodes_to_run in E. rewrite E. cbn [bind]. rewrite utf8_text_iff in N. destruct (utf8_valid t); [now contradiction N|reflexivity].
Qed.
Lemma str_unk dec raw t : string_unmarshal dec raw = Err (EUnknownEnc t) <-> str_unknown dec raw t.
Proof.
  unfold string_unmarshal, str_unknown. destruct (contains_byte x00 raw) eqn:C.
  - apply contains_byte_spec in C. split; [discriminate|tauto].
  - apply contains_byte_false in C. rewrite text_unk. tauto.
Qed.
Lemma name_unk dec raw t : name_unmarshal dec raw = Err (EUnknownEnc t) <-> name_unknown dec raw t.
Proof.
  unfold name_unmarshal, name_unknown. destruct (Nat.ltb_spec max_name (length raw)) as [L|L].
  - split; [discriminate|]. unfold max_name in L. intros [K _]. lia.
  - destruct (existsb invalid_char_name raw) eqn:X.
    + split; [discriminate|]. intros (_ & N & _). apply existsb_exists in X as (c & I & X). apply invalid_char_name_spec in X. cbn in X. destruct X as [<-|[<-|[<-|[<-|[<-|[]]]]]]; tauto.
    + rewrite text_unk. unfold max_name in L. assert (N : forall c, In c raw -> invalid_char_name c = false).
      { intros c I. destruct (invalid_char_name c) eqn:Y; [|reflexivity]. assert (existsb invalid_char_name raw = true) by (apply existsb_exists; eauto). congruence. }
      assert (M : ~ In "$"%byte raw /\ ~ In x00 raw /\ ~ In x0d raw /\ ~ In x0a raw /\ ~ In x09 raw) by (repeat split; intros I; apply N in I; discriminate I).
      split; [intros H; repeat split; try tauto; lia|tauto].
Qed.
Lemma uint_not s t : parse_uint_trim s <> Err (EUnknownEnc t).
Proof. apply uint_plain. Qed.
Lemma int_not s t : atoi_trim s <> Err (EUnknownEnc t).
Proof. apply atoi_plain. Qed.

(** Following a decoder that reports an unknown encoding: only texts have a second branch. *)
Ltac seek H :=
  cbv zeta in H;
  match type of H with
  | (match cut_seq ?p ?d with _ => _ end) = _ => let E := fresh "E" in destruct (cut_seq p d) as [[? ?]|] eqn:E; [apply first_cut_seq in E|discriminate H]
  | (match cut ?c ?d with _ => _ end) = _ => let E := fresh "E" in destruct (cut c d) as [[? ?]|] eqn:E; [apply first_cut in E|discriminate H]
  | (match name_unmarshal ?c ?d with _ => _ end) = _ => let E := fresh "E" in destruct (name_unmarshal c d) as [?|?|] eqn:E; [apply name_iff in E|first [discriminate H|injection H as _ ->; apply name_unk in E]|discriminate H]
  | (match string_unmarshal ?c ?d with _ => _ end) = _ => let E := fresh "E" in destruct (string_unmarshal c d) as [?|?|] eqn:E; [apply str_iff in E|first [discriminate H|injection H as _ ->; apply str_unk in E]|discriminate H]
  | (match parse_uint_trim ?d with _ => _ end) = _ => let E := fresh "E" in destruct (parse_uint_trim d) as [?|?|] eqn:E; [apply uint_iff in E|first [discriminate H|injection H as _ ->; exfalso; exact (uint_not _ _ E)]|discriminate H]
  | (match atoi_trim ?d with _ => _ end) = _ => let E := fresh "E" in destruct (atoi_trim d) as [?|?|] eqn:E; [apply int_iff in E|first [discriminate H|injection H as _ ->; exfalso; exact (int_not _ _ E)]|discriminate H]
  end.
(** Rewriting a decoder with the text in an unknown encoding. *)
Ltac lost :=
  cbv zeta;
  match goal with
  | H : name_unknown ?c ?d ?t |- context [name_unmarshal ?c ?d] => rewrite (proj2 (name_unk c d t) H); cbv iota beta
  | H : str_unknown ?c ?d ?t |- context [string_unmarshal ?c ?d] => rewrite (proj2 (str_unk c d t) H); cbv iota beta
  end.
Ltac report := repeat first [back_step|lost]; eexists; reflexivity.

(** ** Chat *)
Lemma chat_unk dec o data t : (exists m, chat_unmarshal dec o data = (m, Err (EUnknownEnc t))) <-> chat_unknown dec data t.
Proof.
  assert (P : forall t c d, (exists m', chat_text dec c d = (m', Err (EUnknownEnc t))) <-> str_unknown dec d t).
  { clear. intros t c d. unfold chat_text. split.
    - intros [m' H]. seek H; [discriminate|exact E].
    - intros H. report. }
  split.
  - intros [m H]. destruct data as [|c d].
    + apply xc_plain; [intros [r X]; discriminate|apply (P t o); eauto].
    + cbn [chat_unmarshal] in H. destruct (beq_spec c "<") as [->|N].
      * pose proof (name_end_plain (S (length d)) d 0 t) as NP. destruct (name_end (S (length d)) d 0) as [[i off]|e'|] eqn:E; [|injection H as _ ->; contradiction|discriminate].
        assert (Pa : chat_parts d (firstn i d) (skipn (i + off) d)) by (apply name_end_iff; eauto). destruct (max_name <? length (firstn i d))%nat; [discriminate|].
        change ("<"%byte :: d) with (B "<" ++ d). seek H; [eapply xc_text; [exact Pa|eassumption|eapply P; eauto]|eapply xc_name; eassumption].
      * apply xc_plain; [intros [r X]; injection X as X _; congruence|apply (P t o); eauto].
  - intros [data' t' N R|d n x t' Pa Hn|d n x name t' Pa Hn R].
    + apply (P t' o) in R. destruct data' as [|c d]; [exact R|]. cbn [chat_unmarshal]. destruct (beq_spec c "<") as [->|_]; [|exact R]. exfalso. apply N. exists d. reflexivity.
    + apply name_end_iff in Pa as (i & off & E & -> & ->). change (B "<" ++ d) with ("<"%byte :: d). cbn [chat_unmarshal]. change (beq "<" "<") with true. cbv iota. rewrite E.
      destruct (Nat.ltb_spec max_name (length (firstn i d))) as [L|_]; [exfalso; destruct Hn as [L' _]; unfold max_name in L; lia|]. report.
    + apply name_end_iff in Pa as (i & off & E & -> & ->). change (B "<" ++ d) with ("<"%byte :: d). cbn [chat_unmarshal]. change (beq "<" "<") with true. cbv iota. rewrite E.
      destruct (Nat.ltb_spec max_name (length (firstn i d))) as [L|_]; [exfalso; destruct Hn as [L' _]; unfold max_name in L; lia|]. repeat back_step. apply P, R.
Qed.
Lemma pm_unk dec o data t : (exists m, pm_unmarshal dec o data = (m, Err (EUnknownEnc t))) <-> pm_unknown dec data t.
Proof.
  split.
  - intros [m H]. unfold pm_unmarshal in H. seek H. seek H; [|eapply xp_to; eassumption]. seek H. seek H; [|eapply xp_from; eassumption]. seek H. seek H; [|eapply xp_name; eassumption].
    seek H; [discriminate|eapply xp_text; eassumption].
  - intros []; unfold pm_unmarshal; report.
Qed.
Lemma mcto_unk dec o data t : (exists m, mcto_unmarshal dec o data = (m, Err (EUnknownEnc t))) <-> mcto_unknown dec data t.
Proof.
  split.
  - intros [m H]. unfold mcto_unmarshal in H. seek H. seek H; [|eapply xm_to; eassumption]. seek H. seek H; [|eapply xm_from; eassumption]. seek H; [discriminate|eapply xm_text; eassumption].
  - intros []; unfold mcto_unmarshal; report.
Qed.
Lemma rctm_unk dec o data t : (exists m, rctm_unmarshal dec o data = (m, Err (EUnknownEnc t))) <-> rctm_unknown dec data t.
Proof.
  split.
  - intros [m H]. unfold rctm_unmarshal in H. seek H. seek H; [|eapply xr_from; eassumption]. seek H; [discriminate|eapply xr_to; eassumption].
  - intros []; unfold rctm_unmarshal; report.
Qed.
Lemma ctm_unk dec o data t : (exists m, ctm_unmarshal dec o data = (m, Err (EUnknownEnc t))) <-> ctm_unknown dec data t.
Proof.
  split.
  - intros [m H]. unfold ctm_unmarshal in H. seek H. seek H; [|eapply xt_targ; eassumption]. both H.
    + seek H; [exfalso; clear - H|eapply xt_src; eassumption]. destruct (last_is "S" _); (destruct (last_is "N" _); [|destruct (last_is "R" _)]); discriminate.
    + exfalso; clear - H. destruct (last_is "S" _); (destruct (last_is "N" _); [|destruct (last_is "R" _)]); discriminate.
  - intros []; unfold ctm_unmarshal; report.
Qed.
Lemma path_plain dec t l : forall acc p, unmarshal_path dec l acc <> (p, Err (EUnknownEnc t)).
Proof.
  induction l as [|x l IH]; intros acc p H; cbn [unmarshal_path] in H; [discriminate|]. destruct x as [|c x]; [now apply IH in H|]. destruct (string_unmarshal dec (c :: x)); [now apply IH in H|discriminate|discriminate].
Qed.
Lemma ucmd_unk dec o data t : (exists m, ucmd_unmarshal dec o data = (m, Err (EUnknownEnc t))) <-> ucmd_unknown dec data t.
Proof.
  split.
  - intros [m H]. unfold ucmd_unmarshal in H. pose proof (proj2 (trimmed_iff data _) eq_refl) as T. set (core := trim_white data) in *. clearbody core. cbn [splitn_byte] in H.
    destruct (cut " " core) as [[a r]|] eqn:C; [apply first_cut in C|discriminate].
    assert (K : exists b arr, match cut " " r with Some (a, r0) => a :: [r0] | None => [r] end = b :: arr /\ take_digits b = take_digits r /\ (forall v x, arr = v :: x -> first (B " ") r b v)).
    { destruct (cut " " r) as [[b v]|] eqn:C2; [apply first_cut in C2; exists b, [v]|exists r, []]; (split; [reflexivity|]). { split; [symmetry; eapply take_digits_first, C2|]. intros ? ? [= <- _]. exact C2. } split; [reflexivity|discriminate]. }
    destruct K as (b & arr & Eb & Td & Ar). rewrite Eb in H. clear Eb.
    seek H. cbv zeta in H. destruct (atoi_trim (take_digits b)) as [c|e'|] eqn:Ec; [apply int_iff in Ec|discriminate|discriminate].
    destruct arr as [|v arr]; [discriminate|]. specialize (Ar v arr eq_refl). apply leading_iff in Ec.
    destruct (cut "$" v) as [[p rest]|] eqn:Cd; [apply first_cut in Cd|discriminate].
    destruct p as [|c0 p]; [discriminate|].
    cbv zeta in H. destruct (trim_right_sp (c0 :: p)) as (k & Ek & Nk). set (q := trim_right_by is_sp (c0 :: p)) in *. clearbody q.
    destruct (unmarshal_path dec (split_byte "\" q) []) as [path res] eqn:Up. assert (Sp : split_on (B "\") q (split_byte "\" q)) by now apply (split_on_byte "\").
    destruct res as [[]|e'|]; [|injection H as _ ->; now apply path_plain in Up|discriminate].
    apply unmarshal_path_ok in Up as (r' & -> & F). seek H; [discriminate|].
    eapply xu_command; [exact T|exact C|exact E|exact Ar|exact Ec|rewrite <- Ek; exact Cd|rewrite <- Ek; discriminate|exact Nk|exact Sp|exact F|assumption].
  - assert (S3 : forall core a r b' v, first (B " ") core a r -> first (B " ") r b' v -> splitn_byte 3 " " core = [a; b'; v]).
    { intros core a r b' v F F'. apply (first_cut " ") in F, F'. cbn [splitn_byte]. now rewrite F, F'. }
    intros [core a r b v p c k ps typ ctx path T C Ia Cb L Cd Np Nk Sp F N]. apply trimmed_iff in T. unfold ucmd_unmarshal. rewrite <- T. rewrite (S3 _ _ _ _ _ C Cb). apply leading_iff in L. repeat back_step.
    destruct (p ++ repeat " "%byte k) as [|c0 p'] eqn:Ep; [contradiction|]. rewrite <- Ep, trim_right_sp_iff by exact Nk. apply (split_on_byte "\") in Sp. rewrite <- Sp. rewrite (proj2 (unmarshal_path_ok dec ps [] path) (ex_intro _ path (conj eq_refl F))).
    report.
Qed.

(** ** Files *)
Lemma adcget_unk dec o data t : (exists m, adcget_unmarshal dec o data = (m, Err (EUnknownEnc t))) <-> file_unknown dec data t.
Proof.
  split.
  - intros [m H]. unfold adcget_unmarshal in H. seek H. seek H; [|eexists; eexists; eauto]. exfalso. seek H. seek H. seek H. seek H. cbv zeta in H. destruct (cut_or_all _) as [len r].
    destruct (bytes_eqb len (B "-1")); [|seek H]; (eapply flags_plain; rewrite H; reflexivity).
  - intros (a & r & F & U). unfold adcget_unmarshal. report.
Qed.
Lemma adcsnd_unk dec o data t : (exists m, adcsnd_unmarshal dec o data = (m, Err (EUnknownEnc t))) <-> file_unknown dec data t.
Proof.
  split.
  - intros [m H]. unfold adcsnd_unmarshal in H. seek H. seek H; [|eexists; eexists; eauto]. exfalso. seek H. seek H. seek H. seek H. cbv zeta in H. destruct (cut_or_all _) as [len r].
    seek H. destruct r as [|c r]; [discriminate|]. destruct (bytes_eqb (c :: r) (B "ZL1")); discriminate.
  - intros (a & r & F & U). unfold adcsnd_unmarshal. report.
Qed.
Lemma direction_plain o data t m : direction_unmarshal o data <> (m, Err (EUnknownEnc t)).
Proof.
  intros H. unfold direction_unmarshal in H. seek H. destruct (bytes_eqb l (B "Download")); [|destruct (bytes_eqb l (B "Upload")); [|discriminate]]; (seek H; destruct ((a <? 1) || (32767 <? a))%N; discriminate).
Qed.

(** ** Hub information *)
Lemma field_unk dec n i m f t : (exists m', hubinfo_field dec n i m f = (m', Err (EUnknownEnc t))) <-> In i [0; 2; 8; 9] /\ str_unknown dec f t.
Proof.
  split.
  - intros [m' H]. destruct i as [|[|[|[|[|[|[|[|[|[|[|i]]]]]]]]]]]; cbn [hubinfo_field] in H; try discriminate H;
      try (seek H; [discriminate|split; [cbn; tauto|assumption]]); try (seek H; discriminate).
    destruct (last_cut " " f) as [[? ?]|]; discriminate.
  - intros [Hi N]; cbn in Hi; repeat destruct Hi as [<-|Hi]; try contradiction; cbn [hubinfo_field]; lost; eauto.
Qed.
Lemma field_fine dec n i m f : (exists m', hubinfo_field dec n i m f = (m', Ok tt)) <-> (In i [0; 2; 8; 9] -> exists s, str_read dec f s) /\ (In i [3; 4; 5; 6] -> exists z, int_read f z).
Proof.
  split.
  - intros [m' H]. destruct i as [|[|[|[|[|[|[|[|[|[|[|i]]]]]]]]]]]; cbn [hubinfo_field] in H; split; intros Hi; cbn in Hi; try (exfalso; lia); head_step H; eauto.
  - intros [H1 H2]. destruct i as [|[|[|[|[|[|[|[|[|[|[|i]]]]]]]]]]]; cbn [hubinfo_field]; try (destruct H1 as [s Hs]; [cbn; tauto|]; repeat back_step); try (destruct H2 as [z Hz]; [cbn; tauto|]; repeat back_step); eauto.
    destruct (last_cut " " f) as [[? ?]|]; eauto.
Qed.
Lemma fields_unk dec n t fs : forall i m, (exists m', hubinfo_fields dec n i m fs = (m', Err (EUnknownEnc t))) <->
  exists k f, nth_error fs k = Some f /\ In (i + k) [0; 2; 8; 9] /\ str_unknown dec f t /\
    (forall j g, j < k -> nth_error fs j = Some g -> (In (i + j) [0; 2; 8; 9] -> exists s, str_read dec g s) /\ (In (i + j) [3; 4; 5; 6] -> exists z, int_read g z)).
Proof.
  induction fs as [|f fs IH]; intros i m.
  - cbn [hubinfo_fields]. split; [intros [m' H]; discriminate|]. intros ([|k] & f & E & _); discriminate.
  - cbn [hubinfo_fields]. pose proof (field_unk dec n i m f t) as U. pose proof (field_fine dec n i m f) as G. destruct (hubinfo_field dec n i m f) as [m1 [[]|e|]] eqn:E.
    + rewrite IH. assert (G' := proj1 G (ex_intro _ m1 eq_refl)). split.
      * intros (k & g & K & Hk & Ug & Pre). exists (S k), g. split; [exact K|]. rewrite Nat.add_succ_r. split; [exact Hk|]. split; [exact Ug|]. intros [|j] g' L J.
        -- cbn in J. injection J as <-. now rewrite Nat.add_0_r.
        -- rewrite Nat.add_succ_r. apply (Pre j g'); [lia|exact J].
      * intros ([|k] & g & K & Hk & Ug & Pre).
        -- exfalso. cbn in K. injection K as <-. rewrite Nat.add_0_r in Hk. destruct (proj2 U (conj Hk Ug)) as [m' X]. discriminate.
        -- exists k, g. split; [exact K|]. rewrite Nat.add_succ_r in Hk. split; [exact Hk|]. split; [exact Ug|]. intros j g' L J. specialize (Pre (S j) g'). rewrite Nat.add_succ_r in Pre. apply Pre; [lia|exact J].
    + split.
      * intros [m' H]. injection H as _ ->. destruct (proj1 U (ex_intro _ m1 eq_refl)) as [Hi Uf]. exists 0, f. split; [reflexivity|]. rewrite Nat.add_0_r. split; [exact Hi|]. split; [exact Uf|]. intros j g L. lia.
      * intros ([|k] & g & K & Hk & Ug & Pre).
        -- cbn in K. injection K as <-. rewrite Nat.add_0_r in Hk. destruct (proj2 U (conj Hk Ug)) as [m' X]. injection X as _ ->. eauto.
        -- exfalso. destruct (proj2 G) as [m' X]; [|discriminate]. specialize (Pre 0 f). rewrite Nat.add_0_r in Pre. apply Pre; [lia|reflexivity].
    + split; [intros [m' H]; discriminate|]. intros ([|k] & g & K & Hk & Ug & Pre).
      * cbn in K. injection K as <-. rewrite Nat.add_0_r in Hk. destruct (proj2 U (conj Hk Ug)) as [m' X]. discriminate.
      * exfalso. destruct (proj2 G) as [m' X]; [|discriminate]. specialize (Pre 0 f). rewrite Nat.add_0_r in Pre. apply Pre; [lia|reflexivity].
Qed.
Lemma hubinfo_unk dec o data t : (exists m, hubinfo_unmarshal dec o data = (m, Err (EUnknownEnc t))) <-> hubinfo_unknown dec data t.
Proof.
  unfold hubinfo_unmarshal, hubinfo_unknown. cbv zeta. rewrite fields_unk. split.
  - intros (k & f & K & Hk & U & Pre). exists (splitn_byte 13 "$" data), k, f. split; [now apply (split_max_iff "$" 12)|]. repeat (split; [assumption|]). intros j g L J. destruct (Pre j g L J) as [P1 P2]. split; [|exact P2]. intros X. apply P1. cbn in *. tauto.
  - intros (fs & k & f & SM & K & Hk & U & Pre). apply (split_max_iff "$" 12) in SM. rewrite <- SM. exists k, f. repeat (split; [assumption|]). intros j g L J. destruct (Pre j g L J) as [P1 P2]. split; [|exact P2]. intros X. apply P1. cbn in *. lia.
Qed.

(** ** Searches *)
Lemma flag_plain f t : unmarshal_flag f <> Err (EUnknownEnc t).
Proof. unfold unmarshal_flag. destruct f as [|c [|? ?]]; try discriminate. destruct (beq c "T"); [discriminate|]. destruct (beq c "F"); discriminate. Qed.
Lemma size_plain x f2 m t : search_size x f2 <> (m, Err (EUnknownEnc t)).
Proof. intros H. unfold search_size in H. destruct f2 as [|c f]; [discriminate|]. destruct (beq c "-"); seek H; discriminate. Qed.
Lemma what_unk dec x f t : (exists m, search_what dec x f = (m, Err (EUnknownEnc t))) <-> se_dtype x <> 9%N /\ str_unknown dec f t.
Proof.
  unfold search_what. change data_tth with 9%N. destruct (N.eqb_spec (se_dtype x) 9) as [E|N].
  - split; [|intros [X _]; contradiction]. intros [m H]. exfalso. destruct (has_prefix (B "TTH:") f); [|discriminate]. cbv zeta in H.
    match type of H with context [new_tth ?s] => pose proof (tth_plain s t) as TP; destruct (new_tth s) as [h r] end. injection H as _ ->. now apply TP.
  - split.
    + intros [m H]. seek H; [discriminate|]. auto.
    + intros [_ U]. report.
Qed.
Lemma string_unk dec x r t : (exists m, search_string dec x r = (m, Err (EUnknownEnc t))) <->
  exists rs mx f2 f3 f4 typ, asked r (flag_text rs) (flag_text mx) f2 f3 f4 /\ (f2 <> [] -> exists rs' size, size_read rs f2 rs' size) /\ uint_read f3 typ /\ typ <> 9%N /\ str_unknown dec f4 t.
Proof.
  unfold search_string. split.
  - intros [m H]. destruct (splitn_byte 5 "?" r) as [|f0 [|f1 [|f2 [|f3 [|f4 [|f5 fs]]]]]] eqn:Sp; try discriminate. apply asked_iff in Sp.
    destruct (unmarshal_flag f0) as [rs|e|] eqn:F0; [apply flag_iff in F0; subst f0|injection H as _ ->; now apply flag_plain in F0|discriminate]. cbv zeta in H.
    destruct (unmarshal_flag f1) as [mx|e|] eqn:F1; [apply flag_iff in F1; subst f1|injection H as _ ->; now apply flag_plain in F1|discriminate].
    destruct (search_size _ f2) as [m1 [[]|e|]] eqn:Z; [|injection H as _ ->; now apply size_plain in Z|discriminate]. seek H.
    apply size_iff in Z as (rs' & size & Z & ->). destruct (proj1 (what_unk dec _ f4 t) (ex_intro _ m H)) as [N9 U]. exists rs, mx, f2, f3, f4, a. split; [exact Sp|]. split; [|auto].
    intros Nf. destruct Z as [[X _]|[_ Z]]; [contradiction|]. eauto.
  - intros (rs & mx & f2 & f3 & f4 & typ & A & Z & Hu & N9 & U). apply asked_iff in A. rewrite A, !flag_back. cbv zeta.
    match goal with |- context [search_size ?x f2] => assert (ZZ : exists m', search_size x f2 = (m', Ok tt)) end.
    { destruct f2 as [|c f2]; [cbn; eauto|]. destruct Z as (rs' & size & Z); [discriminate|]. eexists. apply size_iff. exists rs', size. split; [|reflexivity]. right. split; [discriminate|exact Z]. }
    destruct ZZ as [m' ->]. cbv iota beta. repeat back_step. apply what_unk. auto.
Qed.
Lemma search_unk dec o data t : (exists m, search_unmarshal dec o data = (m, Err (EUnknownEnc t))) <-> search_unknown dec data t.
Proof.
  unfold search_unmarshal. split.
  - intros [m H]. seek H. destruct (has_prefix (B "Hub:") l) eqn:P.
    + apply has_prefix_spec in P as [n ->]. change (skipn 4 (B "Hub:" ++ n)) with n in H. seek H; [|eapply xs_user; eassumption].
      destruct (proj1 (string_unk dec _ _ t) (ex_intro _ m H)) as (rs & mx & f2 & f3 & f4 & typ & A & Z & Hu & N9 & U). eapply xs_words; try eassumption. intros n' X. apply app_inv_head in X as <-. eauto.
    + destruct (proj1 (string_unk dec _ _ t) (ex_intro _ m H)) as (rs & mx & f2 & f3 & f4 & typ & A & Z & Hu & N9 & U). eapply xs_words; try eassumption. intros n' ->. rewrite has_prefix_app in P. discriminate.
  - intros [n r F U|who r rs mx f2 f3 f4 typ F W A Z Hu N9 U].
    + apply (first_cut " ") in F. rewrite F. rewrite has_prefix_app. change (skipn 4 (B "Hub:" ++ n)) with n. report.
    + apply (first_cut " ") in F. rewrite F. destruct (has_prefix (B "Hub:") who) eqn:P.
      * apply has_prefix_spec in P as [n ->]. change (skipn 4 (B "Hub:" ++ n)) with n. destruct (W n eq_refl) as [user X]. repeat back_step. apply string_unk. eauto 12.
      * apply string_unk. eauto 12.
Qed.

(** ** Results *)
Lemma tail_unk dec x s t : (exists m, sr_tail dec x s = (m, Err (EUnknownEnc t))) <-> exists addr to, first (B ")") s addr ([x05] ++ to) /\ to <> [] /\ name_unknown dec to t.
Proof.
  unfold sr_tail. split.
  - intros [m H]. seek H. destruct l0 as [|c [|c' l0]]; [discriminate|discriminate|]. destruct (beq_spec c sr_sep) as [->|]; [|discriminate]. seek H; [discriminate|]. exists l, (c' :: l0). split; [exact E|]. split; [discriminate|exact E0].
  - intros (addr & to & F & N & U). apply (first_cut ")") in F. rewrite F. cbv zeta. destruct to as [|c to]; [contradiction|]. cbn [app]. change (beq x05 sr_sep) with true. cbv iota. report.
Qed.
Lemma hub_unk dec x s t : (exists m, sr_hub dec x s = (m, Err (EUnknownEnc t))) <->
  (~ starts_with (B "TTH:") s /\ exists h rest, first (B " (") s h rest /\ str_unknown dec h t) \/
  exists hub tth rest addr to, hub_read dec s hub tth rest /\ first (B ")") rest addr ([x05] ++ to) /\ to <> [] /\ name_unknown dec to t.
Proof.
  assert (G : forall d rest, length d = 39 -> sr_hub dec x (B "TTH:" ++ d ++ B " (" ++ rest) = let '(h, r) := new_tth d in do u <- r keeping set_sr_tth x (Some h); sr_tail dec (set_sr_tth x (Some h)) rest).
  { intros d rest L. unfold sr_hub. rewrite has_prefix_app. change (skipn 4 (B "TTH:" ++ d ++ B " (" ++ rest)) with (d ++ B " (" ++ rest). change base32_size with 39. cbv zeta. destruct (at39 d (B " (" ++ rest) L) as [-> ->]. rewrite has_prefix_app.
    replace (skipn (39 + 2) (d ++ B " (" ++ rest)) with rest; [reflexivity|]. rewrite app_assoc, <- L. replace (length d + 2) with (length (d ++ B " (")) by (rewrite app_length; reflexivity). now rewrite skipn_app_exact. }
  split.
  - intros [m H]. destruct (has_prefix (B "TTH:") s) eqn:P.
    + apply has_prefix_spec in P as [d ->]. destruct (has_prefix (B " (") (skipn 39 d)) eqn:Q.
      * apply cut39 in Q as (d' & rest & -> & L); [|discriminate]. rewrite (G _ _ L) in H. pose proof (tth_plain d' t) as TP. destruct (new_tth d') as [h [[]|e|]] eqn:T; [|injection H as _ ->; now cbn in TP|discriminate].
        destruct (proj1 (tail_unk dec _ _ t) (ex_intro _ m H)) as (addr & to & F & N & U). right. exists [], (Some h), rest, addr, to. split; [apply hbr_hash; [exact L|now apply tth_iff]|auto].
      * unfold sr_hub in H. rewrite has_prefix_app in H. change (skipn 4 (B "TTH:" ++ d)) with d in H. change base32_size with 39 in H. cbv zeta in H. rewrite Q in H. discriminate.
    + assert (Ns : ~ starts_with (B "TTH:") s) by (intros X; apply has_prefix_spec in X; congruence). unfold sr_hub in H. rewrite P in H. seek H. seek H; [|left; eauto].
      destruct (proj1 (tail_unk dec _ _ t) (ex_intro _ m H)) as (addr & to & F & N & U). right. exists a, None, l0, addr, to. split; [eapply hbr_name; eassumption|auto].
  - assert (Np : ~ starts_with (B "TTH:") s -> has_prefix (B "TTH:") s = false) by (intros Ns; destruct (has_prefix (B "TTH:") s) eqn:P; [apply has_prefix_spec in P; contradiction|reflexivity]).
    intros [[Ns (h & rest & F & U)]|(hub & tth & rest & addr & to & HR & F & N & U)].
    + unfold sr_hub. rewrite (Np Ns). report.
    + assert (TU := fun y => proj2 (tail_unk dec y rest t) (ex_intro _ addr (ex_intro _ to (conj F (conj N U))))). destruct HR as [d h rest L Hh|s n rest hub Ns F1 Hs].
      * rewrite (G _ _ L). apply tth_iff in Hh. rewrite Hh. apply TU.
      * unfold sr_hub. rewrite (Np Ns). repeat back_step. apply TU.
Qed.
Lemma slots_unk dec x p slots s t : (exists m, sr_slots dec x p slots s = (m, Err (EUnknownEnc t))) <->
  str_unknown dec p t \/
  exists path f g free total, path_read dec p path /\ first (B "/") slots f g /\ int_read f free /\ int_read g total /\
   ((~ starts_with (B "TTH:") s /\ exists h rest, first (B " (") s h rest /\ str_unknown dec h t) \/
    exists hub tth rest addr to, hub_read dec s hub tth rest /\ first (B ")") rest addr ([x05] ++ to) /\ to <> [] /\ name_unknown dec to t).
Proof.
  unfold sr_slots. split.
  - intros [m H]. seek H; [|auto]. right. seek H. seek H. seek H. apply (fun h => proj1 (hub_unk dec _ s t) (ex_intro _ m h)) in H.
    exists (split_byte "\" p), l, l0, a0, a1. split; [split; [eauto|now apply (split_on_byte "\")]|]. auto.
  - intros [U|(path & f & g & free & total & [[u Hu] Sp] & F & Hf & Hg & U)]; [report|]. repeat back_step. now apply hub_unk.
Qed.
Lemma sr_unk dec o data t : (exists m, sr_unmarshal dec o data = (m, Err (EUnknownEnc t))) <-> sr_unknown dec data t.
Proof.
  assert (G : forall n r1 from x r2 p isdir size slots r3, first (B " ") data n r1 -> name_read dec n from -> first [x05] r1 x r2 -> result_parts x r2 p isdir size slots r3 ->
      sr_unmarshal dec o data = sr_slots dec (mk_sr from (sr_path o) isdir size (sr_free o) (sr_total o) (sr_hubname o) (sr_tth o) (sr_hubaddr o) (sr_to o)) p slots r3).
  { intros n r1 from x r2 p isdir size slots r3 F1 Hn F2 K. unfold sr_unmarshal. change sr_sep with x05. repeat back_step. destruct K as [(-> & -> & -> & K)|(-> & K & -> & ss & s & F5 & F6 & U)].
    - rewrite (proj2 (scan_iff x p slots) K). reflexivity.
    - pose proof (proj2 (scan_none x) K) as SN. destruct (sr_scan (rev x) false []) as [b oo]. destruct b, oo as [[? ?]|]; [exfalso; eapply SN; reflexivity|repeat back_step; reflexivity..]. }
  split.
  - intros [m H0]. assert (H := H0). unfold sr_unmarshal in H. change sr_sep with x05 in H. seek H. seek H; [|eapply xr_sender; eassumption]. seek H.
    assert (Q : forall p isdir size slots r3, result_parts l1 l2 p isdir size slots r3 -> sr_unknown dec data t).
    { intros p isdir size slots r3 K. rewrite (G _ _ _ _ _ _ _ _ _ _ E E0 E1 K) in H0. apply (fun h => proj1 (slots_unk dec _ p slots r3 t) (ex_intro _ m h)) in H0.
      destruct H0 as [U|(path & f & g & free & total & Hp & F & Hf & Hg & [[Ns (h & rest & Fh & U)]|(hub & tth & rest & addr & to & HR & Fa & N & U)])].
      - eapply xr_path; eassumption.
      - eapply xr_hub; eassumption.
      - eapply xr_target; eassumption. }
    destruct (sr_scan (rev l1) false []) as [b oo] eqn:SC.
    assert (C : (exists p sl, b = true /\ oo = Some (p, sl)) \/ (forall p sl, (b, oo) <> (true, Some (p, sl)))).
    { destruct b, oo as [[p sl]|]; [left; eauto|right; discriminate..]. }
    destruct C as [(p & sl & -> & ->)|C].
    + apply scan_iff in SC. eapply (Q p true 0%N sl l2). left. auto.
    + assert (Ns : ~ slots_like l1) by (apply scan_none; intros p sl; rewrite SC; apply C).
      assert (H' : (let m0 := set_sr_isdir (set_sr_from o a) false in
        match cut x05 l2 with
        | None => (m0, Err (EText "invalid SR command: missing size"))
        | Some (sizeslots, data0) =>
            match cut " " sizeslots with
            | None => (m0, Err (EText "invalid SR command: missing size separator"))
            | Some (size, slots) => match parse_uint_trim size with Ok n => sr_slots dec (set_sr_size m0 n) l1 slots data0 | Err e => (set_sr_size m0 0, Err e) | Panic => (set_sr_size m0 0, Panic) end
            end
        end) = (m, Err (EUnknownEnc t))) by (destruct b, oo as [[? ?]|]; [exfalso; eapply C; reflexivity|exact H..]).
      clear H. seek H'. seek H'. seek H'. eapply (Q l1 false a0 l6 l4). right. eauto 10.
  - intros [n r F U|n r1 from x r2 p isdir size slots r3 F1 Hn F2 K U|n r1 from x r2 p isdir size slots r3 path f g free total h rest F1 Hn F2 K Hp F3 Hf Hg Ns F4 U
      |n r1 from x r2 p isdir size slots r3 path f g free total hub tth rest addr to F1 Hn F2 K Hp F3 Hf Hg HR F4 Nt U].
    + unfold sr_unmarshal. report.
    + rewrite (G _ _ _ _ _ _ _ _ _ _ F1 Hn F2 K). apply slots_unk. auto.
    + rewrite (G _ _ _ _ _ _ _ _ _ _ F1 Hn F2 K). apply slots_unk. right. exists path, f, g, free, total. repeat (split; [assumption|]). left. eauto.
    + rewrite (G _ _ _ _ _ _ _ _ _ _ F1 Hn F2 K). apply slots_unk. right. exists path, f, g, free, total. repeat (split; [assumption|]). right. exists hub, tth, rest, addr, to. auto.
Qed.
Lemma sa_plain o data t m : sa_unmarshal o data <> (m, Err (EUnknownEnc t)).
Proof.
  intros H. unfold sa_unmarshal in H. destruct (skipn base32_size data) as [|c r]; [discriminate|]. destruct (beq c " "); [|discriminate].
  match type of H with context [hash_unmarshal_base32 ?h ?s] => pose proof (hash_plain h s t) as P; destruct (hash_unmarshal_base32 h s) as [[[]|e|] h0] end; cbn [fst] in P; [discriminate|injection H as _ ->; contradiction|discriminate].
Qed.
Lemma sp_unk dec o data t : length (sp_tth o) = 24 -> ((exists m, sp_unmarshal dec o data = (m, Err (EUnknownEnc t))) <-> sp_unknown dec data t).
Proof.
  intros L0. assert (G : forall s a, data = s ++ B " " ++ a -> length s = 39 -> sp_unmarshal dec o data = (let '(r, h) := hash_unmarshal_base32 (sp_tth o) s in do u <- r keeping set_sp_tth o h; do n <- name_unmarshal dec a keeping set_sp_tth o h; (set_sp_user (set_sp_tth o h) n, Ok tt))).
  { intros s a -> L. unfold sp_unmarshal. change base32_size with 39. destruct (at39 s (B " " ++ a) L) as [-> ->]. reflexivity. }
  split.
  - intros [m H]. destruct (has_prefix (B " ") (skipn 39 data)) eqn:P.
    + apply cut39 in P as (s & a & E & L); [|discriminate]. rewrite (G s a E L) in H. pose proof (hash_plain (sp_tth o) s t) as HP. destruct (hash_unmarshal_base32 (sp_tth o) s) as [[[]|e'|] h] eqn:Hh; [|injection H as _ ->; cbn in HP; contradiction|discriminate].
      seek H; [discriminate|]. exists s, a, h. split; [exact E|]. split; [exact L|]. split; [now apply (hash_iff (sp_tth o)) in Hh|assumption].
    + exfalso. unfold sp_unmarshal in H. change base32_size with 39 in H. pose proof (space39 data) as S9. rewrite P in S9. destruct (skipn 39 data) as [|c r]; [discriminate|]. rewrite S9 in H. discriminate.
  - intros (s & a & h & E & L & Hh & U). rewrite (G s a E L). apply (hash_iff (sp_tth o)) in Hh; [|exact L0]. rewrite Hh. cbv iota beta. report.
Qed.

(** ** Users *)
Lemma desc_unk dec x f0 t : (exists m, myinfo_desc dec x f0 = (m, Err (EUnknownEnc t))) <->
  exists hastag client version mode v extra d, desc_exact x f0 hastag client version mode v extra d /\ str_unknown dec d t.
Proof.
  split.
  - intros [m H]. destruct (proj1 (desc_left dec x f0 m) (ex_intro _ _ H)) as [(d & -> & _)|[(d & tag & tag' & c & t' & fs & done & bad & rest & is & v' & E & N & Nt & W & Ts & Sp & Ef & Is & R & L & _)|(hastag & client & version & mode & v & extra & d & D & _ & _)]].
    + exfalso. unfold myinfo_desc in H. assert (C : last_cut "<" (d ++ B "<") = Some (d, [])) by (apply last_cut_spec; split; [reflexivity|intros []]). rewrite C in H. discriminate.
    + exfalso. unfold myinfo_desc in H. assert (C : last_cut "<" f0 = Some (d, tag)) by (apply last_cut_spec; auto). rewrite C in H. cbv zeta in H. destruct tag as [|t0 tag]; [contradiction|].
      apply closing_tag in W. rewrite <- W in H. destruct (proj2 (tag_left (set_mi_mode x x00) tag' (set_nums (fold_left apply_item is (set_mi_extra (set_mi_mode x x00) [])) v'))) as [e T].
      { exists c, t', fs, done, bad, rest, is, v'. repeat (split; [eassumption|]). split; [|reflexivity]. rewrite fold_items. exact L. }
      pose proof (tag_plain (set_mi_mode x x00) tag' t) as TP. rewrite T in H, TP. injection H as _ ->. cbn in TP. congruence.
    + exists hastag, client, version, mode, v, extra, d. split; [exact D|]. unfold myinfo_desc in H. cbv zeta in H. destruct D as [(-> & No & -> & -> & -> & -> & -> & ->)|(-> & tag & tag' & c & t' & fs & is & E & N & Nt & W & Ts & Sp & Is & -> & -> & -> & -> & ->)].
      * apply last_cut_none in No. rewrite No in H. seek H; [discriminate|exact E].
      * assert (C : last_cut "<" f0 = Some (d, tag)) by (apply last_cut_spec; auto). rewrite C in H. destruct tag as [|t0 tag]; [contradiction|].
        apply closing_tag in W. rewrite <- W in H. rewrite (proj2 (tag_good (set_mi_mode x x00) tag' _) (ex_intro _ c (ex_intro _ t' (ex_intro _ fs (ex_intro _ is (conj Ts (conj Sp (conj Is eq_refl)))))))) in H. cbv iota beta in H. seek H; [discriminate|assumption].
  - intros (hastag & client & version & mode & v & extra & d & [(-> & No & -> & -> & -> & -> & -> & ->)|(-> & tag & tag' & c & t' & fs & is & E & N & Nt & W & Ts & Sp & Is & -> & -> & -> & -> & ->)] & U); unfold myinfo_desc; cbv zeta.
    + apply last_cut_none in No. rewrite No. report.
    + assert (C : last_cut "<" f0 = Some (d, tag)) by (apply last_cut_spec; auto). rewrite C. destruct tag as [|t0 tag]; [contradiction|].
      apply closing_tag in W. rewrite <- W. rewrite (proj2 (tag_good (set_mi_mode x x00) tag' _) (ex_intro _ c (ex_intro _ t' (ex_intro _ fs (ex_intro _ is (conj Ts (conj Sp (conj Is eq_refl)))))))). report.
Qed.
Lemma end_unk dec x f3 f4 t : (exists m, myinfo_end dec x f3 f4 = (m, Err (EUnknownEnc t))) <-> str_unknown dec f3 t.
Proof.
  unfold myinfo_end. split.
  - intros [m H]. seek H; [|exact E]. destruct f4; discriminate.
  - intros U. report.
Qed.
Lemma rest_unk dec x hastag f1 f2 f3 f4 t : (exists m, myinfo_rest dec x hastag f1 f2 f3 f4 = (m, Err (EUnknownEnc t))) <->
  exists md, f1 = [md] /\ ((exists c flag, f2 = c ++ [flag] /\ str_unknown dec c t) \/ (f2 = [] \/ exists c flag conn, f2 = c ++ [flag] /\ str_read dec c conn) /\ str_unknown dec f3 t).
Proof.
  unfold myinfo_rest. split.
  - intros [m H]. destruct f1 as [|md [|? ?]]; try discriminate. exists md. split; [reflexivity|]. cbv zeta in H. destruct f2 as [|c0 f2] using rev_ind.
    + cbn [rev] in H. right. split; [auto|]. eapply end_unk. eauto.
    + rewrite rev_app_distr in H. cbn [rev app] in H. rewrite drop_last_app in H. seek H; [|left; eauto]. right. split; [eauto 6|]. eapply end_unk. eauto.
  - intros (md & -> & H). cbv zeta. destruct H as [(c & flag & -> & U)|[[->|(c & flag & conn & -> & Hc)] U]].
    + rewrite rev_app_distr. cbn [rev app]. rewrite drop_last_app. report.
    + cbn [rev]. now apply end_unk.
    + rewrite rev_app_distr. cbn [rev app]. rewrite drop_last_app. repeat back_step. now apply end_unk.
Qed.
Lemma myinfo_unk dec o data t : (exists m, myinfo_unmarshal dec o data = (m, Err (EUnknownEnc t))) <-> myinfo_unknown dec o data t.
Proof.
  assert (S6 : forall n name f0 f1 f2 f3 f4 f5, ~ In " "%byte n -> name_read dec n name -> Forall (fun f => ~ In "$"%byte f) [f0; f1; f2; f3; f4; f5] ->
    myinfo_unmarshal dec o (B "$ALL " ++ n ++ B " " ++ sep_by (B "$") [f0; f1; f2; f3; f4; f5]) =
      let '(m, r) := myinfo_desc dec (set_mi_name o name) f0 in do hastag <- r keeping m; myinfo_rest dec m hastag f1 f2 f3 f4).
  { intros n name f0 f1 f2 f3 f4 f5 N Hn F. unfold myinfo_unmarshal. rewrite has_prefix_app. change (skipn 5 (B "$ALL " ++ n ++ B " " ++ sep_by (B "$") [f0; f1; f2; f3; f4; f5])) with (n ++ B " " ++ sep_by (B "$") [f0; f1; f2; f3; f4; f5]).
    change (B " " ++ sep_by (B "$") [f0; f1; f2; f3; f4; f5]) with (" "%byte :: sep_by (B "$") [f0; f1; f2; f3; f4; f5]). rewrite (cut_app " ") by exact N. repeat back_step.
    rewrite six_split by exact F. reflexivity. }
  split.
  - intros [m H]. assert (H0 := H). unfold myinfo_unmarshal in H. destruct (has_prefix (B "$ALL ") data) eqn:P; [|discriminate]. apply has_prefix_spec in P as [d ->]. change (skipn 5 (B "$ALL " ++ d)) with d in H.
    destruct (cut " " d) as [[n r]|] eqn:C; [|discriminate]. apply cut_spec in C as [-> Nn]. change (n ++ " "%byte :: r) with (n ++ B " " ++ r) in *. seek H; [|now apply xi_name].
    cbv zeta in H. destruct (split_byte "$" r) as [|f0 [|f1 [|f2 [|f3 [|f4 [|f5 [|f6 fs]]]]]]] eqn:Sp; try discriminate.
    assert (Er : r = sep_by (B "$") [f0; f1; f2; f3; f4; f5]) by (pose proof (join_split_byte "$" r) as J; rewrite Sp in J; rewrite <- J; reflexivity).
    assert (F : Forall (fun f => ~ In "$"%byte f) [f0; f1; f2; f3; f4; f5]) by (apply Forall_forall; intros f; pose proof (split_byte_pieces "$" r) as Pi; rewrite Sp in Pi; apply Pi). rewrite Er.
    destruct (myinfo_desc dec (set_mi_name o a) f0) as [m1 [hastag|e|]] eqn:D; [| |discriminate].
    + apply desc_good in D as (client & version & mode & v & extra & d & desc & De & Hd & _). apply desc_sound in De. destruct (proj1 (rest_unk dec _ _ _ _ _ _ t) (ex_intro _ m H)) as (md & -> & [(c & flag & -> & U)|[F2 U]]).
      * eapply xi_conn; eassumption.
      * eapply xi_email; eassumption.
    + injection H as _ ->. destruct (proj1 (desc_unk dec _ f0 t) (ex_intro _ m1 D)) as (hastag & client & version & mode & v & extra & d & De & U). apply desc_sound in De. eapply xi_desc; eassumption.
  - intros [n r t' N U|n name f0 hastag client version mode v extra d f1 f2 f3 f4 f5 t' N Hn F D U|n name f0 hastag client version mode v extra d desc md c flag f3 f4 f5 t' N Hn F D Hd U
      |n name f0 hastag client version mode v extra d desc md f2 f3 f4 f5 t' N Hn F D Hd F2 U].
    + unfold myinfo_unmarshal. rewrite has_prefix_app. change (skipn 5 (B "$ALL " ++ n ++ B " " ++ r)) with (n ++ " "%byte :: r). rewrite (cut_app " ") by exact N. report.
    + rewrite (S6 _ _ _ _ _ _ _ _ N Hn F). apply (desc_back o name) in D as (extra' & D & _). destruct (proj2 (desc_unk dec (set_mi_name o name) f0 t')) as [m X]; [eauto 12|]. rewrite X. eauto.
    + rewrite (S6 _ _ _ _ _ _ _ _ N Hn F). apply (desc_back o name) in D as (extra' & D & _). assert (X : exists m, myinfo_desc dec (set_mi_name o name) f0 = (m, Ok hastag)) by (eexists; apply desc_good; do 7 eexists; split; [exact D|split; [exact Hd|reflexivity]]).
      destruct X as [m1 ->]. cbv iota beta. apply rest_unk. eauto 10.
    + rewrite (S6 _ _ _ _ _ _ _ _ N Hn F). apply (desc_back o name) in D as (extra' & D & _). assert (X : exists m, myinfo_desc dec (set_mi_name o name) f0 = (m, Ok hastag)) by (eexists; apply desc_good; do 7 eexists; split; [exact D|split; [exact Hd|reflexivity]]).
      destruct X as [m1 ->]. cbv iota beta. apply rest_unk. eauto 10.
Qed.

(** ** Lists *)
Lemma list_unk_cons {A} (R : bytes -> A -> Prop) U p ps t : list_unknown R U (p :: ps) t <-> U p t \/ (exists x, R p x) /\ list_unknown R U ps t.
Proof.
  split.
  - intros ([|d done] & bad & rest & l & E & F & H).
    + injection E as -> ->. auto.
    + injection E as -> ->. inversion F; subst. right. split; [eauto|]. exists done, bad, rest. eauto.
  - intros [H|[[x Hx] (done & bad & rest & l & -> & F & H)]].
    + exists [], p, ps, []. auto.
    + exists (p :: done), bad, rest, (x :: l). auto.
Qed.
Lemma list_unk_nil {A} (R : bytes -> A -> Prop) U t : ~ list_unknown R U [] t.
Proof. intros ([|d done] & bad & rest & l & E & _); discriminate. Qed.
Lemma names_sub_unk dec t l : names_sub dec l = Err (EUnknownEnc t) <-> list_unknown (name_read dec) (name_unknown dec) l t.
Proof.
  induction l as [|p l IH]; cbn [names_sub]; [split; [discriminate|intros H; now apply list_unk_nil in H]|]. rewrite list_unk_cons, <- IH. clear IH. destruct (name_unmarshal dec p) as [x|e|] eqn:E; cbn [bind].
  - assert (Ex := proj1 (name_iff _ _ _) E). assert (Nx : ~ name_unknown dec p t) by (intros X; apply name_unk in X; congruence). destruct (names_sub dec l) as [y|e|]; cbn [bind]; split; try discriminate.
    + intros [X|[_ X]]; [contradiction|discriminate].
    + intros X. right. split; [eauto|exact X].
    + intros [X|[_ X]]; [contradiction|exact X].
    + intros [X|[_ X]]; [contradiction|discriminate].
  - split.
    + intros X. left. apply name_unk. congruence.
    + intros [X|[[x X] _]]; [apply name_unk in X; congruence|]. apply name_iff in X. congruence.
  - now apply name_unmarshal_total in E.
Qed.
Lemma names_unk dec o data t : (exists m, names_unmarshal dec o data = (m, Err (EUnknownEnc t))) <->
  exists d ps, without_suffix (B "$$") data d /\ d <> [] /\ split_on (B "$$") d ps /\ list_unknown (name_read dec) (name_unknown dec) ps t.
Proof.
  unfold names_unmarshal. split.
  - intros [m H]. destruct (trim_suffix (B "$$") data) as [|c d] eqn:T; [discriminate|]. exists (c :: d), (split_seq (B "$$") (c :: d)). split; [now apply without_suffix_iff|]. split; [discriminate|]. split; [now apply split_on_seq|].
    apply names_sub_unk. destruct (names_sub dec _) as [x|e|]; [discriminate|congruence|discriminate].
  - intros (d & ps & W & N & Sp & L). apply without_suffix_iff in W; [|discriminate]. apply split_on_seq in Sp; [|discriminate]. subst. apply names_sub_unk in L. destruct (trim_suffix (B "$$") data) as [|c d]; [contradiction|]. rewrite L. eauto.
Qed.
Lemma userip_sub_unk dec t l : forall acc, (exists m, userip_sub dec l acc = (m, Err (EUnknownEnc t))) <-> list_unknown (userip_entry dec) (entry_unknown dec) l t.
Proof.
  induction l as [|s l IH]; intros acc.
  - cbn [userip_sub]. split; [intros [m H]; discriminate|]. intros H. now apply list_unk_nil in H.
  - pose proof (entry_one dec s) as One. rewrite list_unk_cons. assert (Eu : entry_unknown dec s t <-> name_unknown dec (fst (match last_cut " " s with Some (n, ip) => (n, ip) | None => (s, []) end)) t).
    { destruct (last_cut " " s) as [[n ip]|] eqn:C; cbn [fst].
      - apply last_cut_spec in C as [-> N]. split.
        + intros H. inversion H as [n' ip' t' N' U E|n' t' N' U]; subst; [|exfalso; apply N'; apply in_app_iff; right; now left].
          assert (X : last_cut " " (n ++ " "%byte :: ip) = Some (n', ip')) by (apply last_cut_spec; auto). assert (Y : last_cut " " (n ++ " "%byte :: ip) = Some (n, ip)) by (apply last_cut_spec; auto). rewrite X in Y. now injection Y as -> ->.
        + intros U. now apply (xe_both dec n ip t).
      - apply last_cut_none in C. split.
        + intros H. inversion H as [n' ip' t' N' U E|n' t' N' U]; subst; [|assumption]. exfalso. apply C, in_app_iff. right. now left.
        + now apply xe_name. }
    rewrite Eu. clear Eu. cbn [userip_sub] in *. destruct (match last_cut " " s with Some (n, ip) => (n, ip) | None => (s, []) end) as [n ip]. cbn [fst].
    destruct (name_unmarshal dec n) as [x|e|] eqn:E; [| |now apply name_unmarshal_total in E].
    + rewrite IH. cbn [app] in One. split.
      * intros H. right. split; [exists (x, ip); now apply One|exact H].
      * intros [X|[_ H]]; [apply name_unk in X; congruence|exact H].
    + split.
      * intros [m H]. injection H as _ ->. left. now apply name_unk.
      * intros [X|[[x X] _]]; [apply name_unk in X; rewrite X in E; injection E as <-; eauto|]. apply One in X. discriminate.
Qed.
Lemma userip_unk dec data t : (exists m, userip_unmarshal dec data = (m, Err (EUnknownEnc t))) <->
  exists d1 d2 ps, without_suffix [x0d] data d1 /\ without_suffix (B "$$") d1 d2 /\ split_on (B "$$") d2 ps /\ list_unknown (userip_entry dec) (entry_unknown dec) ps t.
Proof.
  unfold userip_unmarshal. rewrite userip_sub_unk. split.
  - intros L. exists (trim_suffix [x0d] data), (trim_suffix (B "$$") (trim_suffix [x0d] data)), (split_seq (B "$$") (trim_suffix (B "$$") (trim_suffix [x0d] data))).
    split; [now apply without_suffix_iff|]. split; [now apply without_suffix_iff|]. split; [now apply split_on_seq|exact L].
  - intros (d1 & d2 & ps & W1 & W2 & Sp & L). apply without_suffix_iff in W1; [|discriminate]. apply without_suffix_iff in W2; [|discriminate]. apply split_on_seq in Sp; [|discriminate]. now subst.
Qed.

(** ** All types *)
Lemma lift_unk {A} (C : A -> msg) (r : A * res unit) e : (exists m, lift C r = (m, Err e)) <-> exists x, r = (x, Err e).
Proof. destruct r as [x r]. unfold lift. cbn [fst snd]. split; intros [m H]; injection H as _ ->; eauto. Qed.
(** One case of the specification. *)
Ltac case_of U C := rewrite U; split; [apply C|intros H; inversion H; assumption].
Lemma unknown_iff dec o data t : sized o -> ((exists m, msg_unmarshal dec o data = (m, Err (EUnknownEnc t))) <-> unknown_in dec o data t).
Proof.
  intros Sz. destruct o as [k s|k s|k|k s|k er|k l|o|o|o|o|o|o|o|o|o|o|o|o|o|o|o|o|o|o|o|ty d]; cbn [msg_unmarshal sized] in *; try rewrite lift_unk;
    try (split; [intros [m H]; discriminate|intros H; inversion H; fail]).
  - split; [|intros H; inversion H; subst; unfold name_msg_unmarshal; report]. intros [m H]. unfold name_msg_unmarshal in H. seek H; [discriminate|now apply ui_name].
  - split; [|intros H; inversion H; subst; unfold string_msg_unmarshal; report]. intros [m H]. unfold string_msg_unmarshal in H. seek H; [discriminate|now apply ui_string].
  - split; [intros [m H]; destruct data; discriminate|intros H; inversion H].
  - split; [|intros H; inversion H; subst; unfold err_unmarshal; report]. intros [m H]. unfold err_unmarshal in H. seek H; [discriminate|now apply ui_err].
  - rewrite names_unk. split; [intros (d & ps & W & N & Sp & L); eapply ui_names; eassumption|intros H; inversion H; subst; eauto 10].
  - case_of chat_unk ui_chat.
  - case_of pm_unk ui_pm.
  - case_of mcto_unk ui_mcto.
  - case_of ucmd_unk ui_ucmd.
  - case_of ctm_unk ui_ctm.
  - case_of rctm_unk ui_rctm.
  - case_of adcget_unk ui_adcget.
  - case_of adcsnd_unk ui_adcsnd.
  - split; [intros [m H]; now apply direction_plain in H|intros H; inversion H].
  - case_of hubinfo_unk ui_hubinfo.
  - case_of search_unk ui_search.
  - case_of sr_unk ui_sr.
  - split; [intros [m H]; now apply sa_plain in H|intros H; inversion H].
  - rewrite sp_unk by exact Sz. split; [apply ui_sp|intros H; inversion H; assumption].
  - case_of myinfo_unk ui_myinfo.
  - rewrite userip_unk. split; [intros (d1 & d2 & ps & W1 & W2 & Sp & L); eapply ui_userip; eassumption|intros H; inversion H; subst; eauto 10].
Qed.
Lemma unknown_new dec o data t : unknown_in dec o data t -> exists m, msg_unmarshal dec (new_message (msg_type o)) data = (m, Err (EUnknownEnc t)).
Proof.
  intros H. destruct H.
  - destruct k; apply lift_unk; unfold name_msg_unmarshal; report.
  - destruct k; apply lift_unk; unfold string_msg_unmarshal; report.
  - destruct k; apply lift_unk; unfold err_unmarshal; report.
  - destruct k; apply lift_unk, names_unk; eauto 10.
  - apply lift_unk, chat_unk, H.
  - apply lift_unk, pm_unk, H.
  - apply lift_unk, mcto_unk, H.
  - apply lift_unk, ucmd_unk, H.
  - apply lift_unk, ctm_unk, H.
  - apply lift_unk, rctm_unk, H.
  - apply lift_unk, adcget_unk, H.
  - apply lift_unk, adcsnd_unk, H.
  - apply lift_unk, hubinfo_unk, H.
  - apply lift_unk, search_unk, H.
  - apply lift_unk, sr_unk, H.
  - apply lift_unk, sp_unk; [reflexivity|exact H].
  - apply myinfo_unk in H as [m H]. pose proof (acceptance_independent dec (MMyInfo o) (new_message (msg_type (MMyInfo o))) data Logic.I Logic.I Logic.I) as A.
    cbn [msg_unmarshal] in A. unfold lift in A at 1. rewrite H in A. cbn [snd] in A. destruct (msg_unmarshal dec (new_message (msg_type (MMyInfo o))) data) as [m' r']. cbn [snd] in A. subst r'. eauto.
  - apply lift_unk, userip_unk. eauto 10.
Qed.
Lemma unknown_for_iff dec ty data t : unknown_for dec ty data t <-> exists m, msg_unmarshal dec (new_message ty) data = (m, Err (EUnknownEnc t)).
Proof.
  split.
  - intros (o & <- & H). now apply unknown_new.
  - intros H. exists (new_message ty). split; [apply new_message_type|]. apply unknown_iff; [apply new_message_cleared|exact H].
Qed.
