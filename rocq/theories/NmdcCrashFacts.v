(** When exactly decoding an NMDC message crashes. *)
From Verif Require Import Base BaseFacts Num NumFacts NumSpec Utf8 Utf8Facts SpecText SpecHash SpecNmdc SpecRead NmdcText.
From Verif Require Import Base32 Base32Facts Tiger TigerFacts NmdcChat NmdcHub NmdcFiles NmdcUser NmdcMessage NmdcMsgFacts NmdcDecodeFacts NmdcTextFacts NmdcChatFacts NmdcReadFacts NmdcReadChat NmdcReadFiles SpecFrame SpecReader SpecStream.

Lemma tth_panics s : snd (new_tth s) = Panic <-> starts_with_symbols 40 (unbroken s).
Proof.
  rewrite <- (unmarshal_panics (repeat x00 hash_size) s) by reflexivity. unfold new_tth. destruct (hash_unmarshal_base32 _ s) as [r x]. reflexivity.
Qed.
Lemma what_panics dec m f : snd (search_what dec m f) = Panic <->
  se_dtype m = 9%N /\ exists s e, f = B "TTH:" ++ s ++ e /\ ((e = [] /\ ~ ends_in "$" s) \/ e = B "$") /\ starts_with_symbols 40 (unbroken s).
Proof.
  unfold search_what. destruct (N.eqb_spec (se_dtype m) data_tth) as [D|D].
  - destruct (has_prefix (B "TTH:") f) eqn:P.
    + apply has_prefix_spec in P as [s ->]. change (skipn 4 (B "TTH:" ++ s)) with s. cbv zeta.
      assert (G : forall x, snd (let '(t, r) := new_tth x in (set_se_tth m (Some t), r)) = Panic <-> starts_with_symbols 40 (unbroken x)).
      { intros x. rewrite <- tth_panics. destruct (new_tth x). reflexivity. }
      rewrite G. destruct (last_is "$" s) eqn:L.
      * assert (Es := last_is_true _ _ L). split.
        -- intros H. split; [exact D|]. exists (drop_last s), (B "$"). split; [rewrite Es at 1; reflexivity|]. auto.
        -- intros (_ & s' & e & E & [[-> N]| ->] & H); apply app_inv_head in E.
           ++ rewrite app_nil_r in E. subst s'. exfalso. apply N. exists (drop_last s). exact Es.
           ++ subst s. change (B "$") with ["$"%byte]. now rewrite drop_last_app.
      * apply last_is_false in L. split.
        -- intros H. split; [exact D|]. exists s, []. rewrite app_nil_r. auto.
        -- intros (_ & s' & e & E & [[-> N]| ->] & H); apply app_inv_head in E.
           ++ rewrite app_nil_r in E. now subst s'.
           ++ subst s. exfalso. apply L. now exists s'.
    + split; [discriminate|]. intros (_ & s & e & -> & _). rewrite has_prefix_app in P. discriminate.
  - split; [|intros [E _]; contradiction]. intros H. exfalso. pose proof (string_unmarshal_total dec f) as T. destruct (string_unmarshal dec f); try discriminate. now apply T.
Qed.
Lemma string_panics dec m r : snd (search_string dec m r) = Panic <-> exists rs mx f2 f3 s e rs' size,
  r = flag_text rs ++ B "?" ++ flag_text mx ++ B "?" ++ f2 ++ B "?" ++ f3 ++ B "?" ++ B "TTH:" ++ s ++ e /\ ~ In "?"%byte f2 /\ ~ In "?"%byte f3 /\
  size_read rs f2 rs' size /\ uint_read f3 9 /\ ((e = [] /\ ~ ends_in "$" s) \/ e = B "$") /\ starts_with_symbols 40 (unbroken s).
Proof.
  unfold search_string. cbn [splitn_byte]. split.
  - intros H. destruct (cut "?" r) as [[f0 r1]|] eqn:C1; [|discriminate]. apply cut_spec in C1 as [-> N0].
    destruct (cut "?" r1) as [[f1 r2]|] eqn:C1; [|discriminate]. apply cut_spec in C1 as [-> N1].
    destruct (cut "?" r2) as [[f2 r3]|] eqn:C1; [|discriminate]. apply cut_spec in C1 as [-> N2].
    destruct (cut "?" r3) as [[f3 f4]|] eqn:C1; [|discriminate]. apply cut_spec in C1 as [-> N3].
    assert (FT : forall f, unmarshal_flag f <> Panic) by (intros f; unfold unmarshal_flag; destruct f as [|c [|? ?]]; try discriminate; destruct (beq c "T"); [discriminate|]; destruct (beq c "F"); discriminate).
    destruct (unmarshal_flag f0) as [rs|e|] eqn:F0; try discriminate; [|now apply FT in F0]. apply flag_iff in F0 as ->.
    destruct (unmarshal_flag f1) as [mx|e|] eqn:F1; try discriminate; [|now apply FT in F1]. apply flag_iff in F1 as ->. cbv zeta in H.
    destruct (search_size _ f2) as [m1 [u|e|]] eqn:SZ; try discriminate.
    + assert (K : exists rs' size, size_read rs f2 rs' size).
      { unfold search_size in SZ. destruct f2 as [|c t]; [exists rs, 0%N; constructor|]. destruct (beq_spec c "-") as [->|Nc].
        - destruct (parse_uint_trim t) as [n| |] eqn:U; try discriminate. apply uint_iff in U. exists false, 0%N. change ("-"%byte :: t) with (B "-" ++ t). now apply szr_negative with n.
        - destruct (parse_uint_trim (c :: t)) as [n| |] eqn:U; try discriminate. apply uint_iff in U. exists rs, n. apply szr_number; [|exact U]. intros [x E]. injection E as -> _. contradiction. }
      destruct K as (rs' & size & SR). pose proof (parse_uint_trim_total f3) as UT. destruct (parse_uint_trim f3) as [typ|e|] eqn:U; try discriminate; [|now exfalso]. apply uint_iff in U.
      apply what_panics in H as (E & s & e & -> & He & O). cbn in E. subst typ. exists rs, mx, f2, f3, s, e, rs', size. repeat split; assumption.
    + exfalso. unfold search_size in SZ. destruct f2 as [|c t]; [discriminate|]. destruct (beq c "-"); [pose proof (parse_uint_trim_total t); destruct (parse_uint_trim t)|pose proof (parse_uint_trim_total (c :: t)); destruct (parse_uint_trim (c :: t))]; try discriminate; congruence.
  - intros (rs & mx & f2 & f3 & s & e & rs' & size & -> & N2 & N3 & SR & U & He & O).
    change (flag_text rs ++ B "?" ++ flag_text mx ++ B "?" ++ f2 ++ B "?" ++ f3 ++ B "?" ++ B "TTH:" ++ s ++ e) with (flag_text rs ++ "?"%byte :: flag_text mx ++ "?"%byte :: f2 ++ "?"%byte :: f3 ++ "?"%byte :: B "TTH:" ++ s ++ e).
    assert (NF : forall b, ~ In "?"%byte (flag_text b)) by (intros []; intros [X|[]]; discriminate).
    rewrite cut_app by apply NF. rewrite cut_app by apply NF. rewrite cut_app by exact N2. rewrite cut_app by exact N3.
    rewrite (proj2 (flag_iff (flag_text rs) rs) eq_refl), (proj2 (flag_iff (flag_text mx) mx) eq_refl). cbv zeta.
    match goal with |- context [search_size ?m0 f2] => assert (SZ : exists m1, search_size m0 f2 = (m1, Ok tt)) end.
    { unfold search_size. destruct SR as [|x n Un|f2 n Nm Un].
      - eexists. reflexivity.
      - change (B "-" ++ x) with ("-"%byte :: x). change (beq "-" "-") with true. cbv iota. rewrite (proj2 (uint_iff x n) Un). eexists. reflexivity.
      - destruct f2 as [|c t].
        + exfalso. apply uint_iff in Un. vm_compute in Un. discriminate.
        + destruct (beq_spec c "-") as [->|_]; [exfalso; apply Nm; exists t; reflexivity|]. rewrite (proj2 (uint_iff (c :: t) n) Un). eexists. reflexivity. }
    destruct SZ as [m1 ->]. rewrite (proj2 (uint_iff f3 9%N) U). apply what_panics. split; [reflexivity|]. exists s, e. auto.
Qed.
Lemma search_panics dec m data : snd (search_unmarshal dec m data) = Panic <-> search_crash dec data.
Proof.
  unfold search_unmarshal. split.
  - destruct (cut " " data) as [[who r]|] eqn:C; [|discriminate]. apply first_cut in C. destruct (has_prefix (B "Hub:") who) eqn:P.
    + apply has_prefix_spec in P as [n ->]. change (skipn 4 (B "Hub:" ++ n)) with n. pose proof (name_unmarshal_total dec n) as NT. destruct (name_unmarshal dec n) as [user|e|] eqn:E; [|discriminate|now exfalso]. apply name_iff in E.
      intros H. apply string_panics in H as (rs & mx & f2 & f3 & s & e & rs' & size & -> & N2 & N3 & SR & U & He & O).
      eapply src_crash; [exact C|left; exists n, user; auto|reflexivity|exact N2|exact N3|exact SR|exact U|exact He|exact O].
    + intros H. apply string_panics in H as (rs & mx & f2 & f3 & s & e & rs' & size & -> & N2 & N3 & SR & U & He & O).
      eapply src_crash; [exact C|right; intros [x ->]; rewrite has_prefix_app in P; discriminate|reflexivity|exact N2|exact N3|exact SR|exact U|exact He|exact O].
  - intros [data' who r f2 f3 s e rs rs' mx size F Who -> N2 N3 SR U He O]. repeat back_step.
    assert (X : forall m, snd (search_string dec m (flag_text rs ++ B "?" ++ flag_text mx ++ B "?" ++ f2 ++ B "?" ++ f3 ++ B "?" ++ B "TTH:" ++ s ++ e)) = Panic).
    { intros m0. apply string_panics. exists rs, mx, f2, f3, s, e, rs', size. repeat split; assumption. }
    destruct Who as [(n & user & -> & Nn)|N].
    + rewrite has_prefix_app. change (skipn 4 (B "Hub:" ++ n)) with n. repeat back_step. apply X.
    + destruct (has_prefix (B "Hub:") who) eqn:P; [apply has_prefix_spec in P; contradiction|]. apply X.
Qed.
Lemma msg_panics dec m d : sized m -> (snd (msg_unmarshal dec m d) = Panic <-> (exists s, m = MSearch s) /\ search_crash dec d).
Proof.
  intros SZ. split.
  - intros H. destruct (unmarshal_panics_only dec m d SZ H) as (s & pre & h & -> & _). split; [now exists s|]. cbn [msg_unmarshal] in H. unfold lift in H. cbn in H. now apply search_panics in H.
  - intros [[s ->] C]. cbn [msg_unmarshal]. unfold lift. cbn. now apply search_panics.
Qed.
