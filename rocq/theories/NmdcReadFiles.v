(** Reading relations: files and search. *)
From Verif Require Import Base BaseFacts Num NumFacts NumSpec Utf8 Utf8Facts SpecText SpecHash SpecNmdc SpecRead HtmlReadFacts NmdcText NmdcTextFacts.
From Verif Require Import NmdcChat NmdcHub NmdcFiles NmdcUser NmdcMessage Tiger TigerFacts NmdcChatFacts NmdcFilesFacts NmdcReadFacts NmdcReadChat.

(** ** Flags of a request *)

Fixpoint flag_list (m : adcget) (fs : list bytes) : adcget * res unit :=
  match fs with
  | [] => (m, Ok tt)
  | field :: r =>
      if bytes_eqb field (B "ZL1") then flag_list (set_ag_compressed m true) r
      else if has_prefix (B "DB") field then
        match parse_uint_trim (skipn 2 field) with
        | Ok n => flag_list (set_ag_downloaded m (Some n)) r
        | Err _ => (m, Err (EText "ADCGet: unable to parse field 'DownloadedBytes'"))
        | Panic => (m, Panic)
        end
      else flag_list m r
  end.
Lemma flags_list f : forall m d, length d <= f -> adcget_flags f m d = flag_list m (split_byte " " d).
Proof.
  induction f as [|f IH]; intros m d L; destruct d as [|c d]; try reflexivity; [cbn in L; lia|]. cbn [adcget_flags]. unfold cut_or_all.
  destruct (cut " " (c :: d)) as [[a r]|] eqn:C.
  - apply cut_spec in C as [E N]. rewrite E, split_byte_app by exact N. assert (Lr : length r <= f) by (rewrite E, app_length in L; cbn in L; lia).
    cbn [flag_list]. destruct (bytes_eqb a (B "ZL1")); [now apply IH|]. destruct (has_prefix (B "DB") a); [|now apply IH].
    destruct (parse_uint_trim (skipn 2 a)); auto.
  - apply cut_none in C. rewrite split_byte_notin by exact C. cbn [flag_list]. assert (Z : forall m, adcget_flags f m [] = (m, Ok tt)) by (intros; destruct f; reflexivity).
    destruct (bytes_eqb (c :: d) (B "ZL1")); [apply Z|]. destruct (has_prefix (B "DB") (c :: d)); [|apply Z]. destruct (parse_uint_trim (skipn 2 (c :: d))); auto.
Qed.

Lemma flags_exist fs db : (exists z, flags_read fs z db) <-> flags_read fs (existsb (fun f => bytes_eqb f (B "ZL1")) fs) db.
Proof.
  split; [|eauto]. intros (z & _ & H). split; [|exact H]. rewrite existsb_exists. split; [intros (x & I & E); apply bytes_eqb_true in E; now subst|]. intros I. exists (B "ZL1"). split; [exact I|apply bytes_eqb_true; reflexivity].
Qed.
Lemma flags_zl fs z db : flags_read (B "ZL1" :: fs) z db <-> z = true /\ exists z', flags_read fs z' db.
Proof.
  unfold flags_read at 1. split.
  - intros (H1 & H2 & H3). split; [apply H1; now left|]. apply flags_exist. split; [rewrite existsb_exists; split; [intros (x & I & E); apply bytes_eqb_true in E; now subst|]; intros I; exists (B "ZL1"); split; [exact I|apply bytes_eqb_true; reflexivity]|].
    split; [intros x I; apply H2; now right|]. destruct db as [n|].
    + destruct H3 as (l & x & r & E & H). destruct l as [|y l]; [discriminate|]. injection E as _ ->. exists l, x, r. auto.
    + intros x I. apply (H3 x). now right.
  - intros (-> & z' & H1 & H2 & H3). split; [split; [intros _; now left|reflexivity]|]. split; [intros x [E|I]; [discriminate|auto]|]. destruct db as [n|].
    + destruct H3 as (l & x & r & -> & H). exists (B "ZL1" :: l), x, r. auto.
    + intros x [E|I]; [discriminate|]. now apply (H3 x).
Qed.
Lemma flags_db x fs z db : flags_read ((B "DB" ++ x) :: fs) z db <-> exists n db', uint_read x n /\ flags_read fs z db' /\ db = Some (match db' with Some k => k | None => n end).
Proof.
  split.
  - intros (H1 & H2 & H3). destruct (H2 x (or_introl eq_refl)) as [n0 _]. destruct db as [n|]; [|exfalso; apply (H3 x); now left].
    destruct H3 as (l & y & r & E & U & N).
    assert (Z : z = true <-> In (B "ZL1") fs) by (rewrite H1; split; [intros [X|I]; [discriminate|exact I]|now right]).
    destruct l as [|y' l].
    + injection E as <- <-. exists n, None. split; [exact U|]. split; [|reflexivity]. split; [exact Z|]. split; [intros y I; apply H2; now right|exact N].
    + injection E as _ ->. destruct (H2 x (or_introl eq_refl)) as [n1 U1]. exists n1, (Some n). split; [exact U1|]. split; [|reflexivity].
      split; [exact Z|]. split; [intros yy I; apply H2; now right|]. exists l, y, r. auto.
  - intros (n & db' & U & (H1 & H2 & H3) & ->). split; [rewrite H1; split; [now right|intros [X|I]; [discriminate|exact I]]|].
    split; [intros y [E|I]; [injection E as ->; eauto|auto]|]. destruct db' as [k|].
    + destruct H3 as (l & y & r & -> & H). exists ((B "DB" ++ x) :: l), y, r. auto.
    + exists [], x, fs. auto.
Qed.
Lemma flags_other f fs z db : f <> B "ZL1" -> (forall x, f <> B "DB" ++ x) -> (flags_read (f :: fs) z db <-> flags_read fs z db).
Proof.
  intros N1 N2. unfold flags_read. cbn [In].
  assert (Z : (f = B "ZL1" \/ In (B "ZL1") fs) <-> In (B "ZL1") fs) by tauto.
  assert (D : forall x, (f = B "DB" ++ x \/ In (B "DB" ++ x) fs) <-> In (B "DB" ++ x) fs) by (intros x; specialize (N2 x); tauto).
  split; intros (H1 & H2 & H3).
  - split; [tauto|]. split; [intros x I; apply H2; now apply D|]. destruct db as [n|].
    + destruct H3 as (l & x & r & E & H). destruct l as [|y l]; [injection E as E _; now apply N2 in E|]. injection E as _ ->. exists l, x, r. auto.
    + intros x I. apply (H3 x). now apply D.
  - split; [tauto|]. split; [intros x I; apply H2; now apply D|]. destruct db as [n|].
    + destruct H3 as (l & x & r & -> & H). exists (f :: l), x, r. auto.
    + intros x I. apply (H3 x). now apply D.
Qed.
Lemma flag_list_ok fs : forall m m', flag_list m fs = (m', Ok tt) <->
  exists z db, flags_read fs z db /\ m' = mk_adcget (ag_type m) (ag_ident m) (ag_start m) (ag_length m) (ag_compressed m || z) (match db with Some n => Some n | None => ag_downloaded m end).
Proof.
  induction fs as [|f fs IH]; intros m m'; cbn [flag_list].
  - split.
    + intros [= <-]. exists false, None. split; [split; [split; [discriminate|intros []]|split; [intros x []|intros x []]]|]. rewrite orb_false_r. destruct m; reflexivity.
    + intros (z & db & (H1 & _ & H3) & ->). destruct z; [destruct (proj1 H1 eq_refl)|]. destruct db as [n|]; [destruct H3 as ([|] & ? & ? & E & _); discriminate|].
      rewrite orb_false_r. destruct m; reflexivity.
  - destruct (bytes_eqb_spec f (B "ZL1")) as [->|N1].
    { rewrite IH. cbn [set_ag_compressed ag_type ag_ident ag_start ag_length ag_compressed ag_downloaded orb]. split.
      - intros (z & db & F & ->). exists true, db. split; [apply flags_zl; eauto|]. now rewrite orb_true_r.
      - intros (z & db & F & ->). apply flags_zl in F as (-> & z' & F). exists z', db. rewrite orb_true_r. auto. }
    destruct (has_prefix (B "DB") f) eqn:P.
    + apply has_prefix_spec in P as [x ->]. change (skipn 2 (B "DB" ++ x)) with x. destruct (parse_uint_trim x) as [n|e|] eqn:U.
      * rewrite IH. cbn [set_ag_downloaded ag_type ag_ident ag_start ag_length ag_compressed ag_downloaded orb]. apply uint_iff in U. split.
        -- intros (z & db & F & ->). exists z, (Some (match db with Some k => k | None => n end)). split; [apply flags_db; eauto|]. destruct db; reflexivity.
        -- intros (z & db & F & ->). apply flags_db in F as (n' & db' & U' & F & ->). apply uint_iff in U, U'. rewrite U in U'. injection U' as <-. exists z, db'. split; [exact F|]. destruct db'; reflexivity.
      * split; [discriminate|]. intros (z & db & F & _). apply flags_db in F as (n' & db' & U' & _). apply uint_iff in U'. congruence.
      * split; [discriminate|]. intros (z & db & F & _). apply flags_db in F as (n' & db' & U' & _). apply uint_iff in U'. congruence.
    + assert (N2 : forall x, f <> B "DB" ++ x) by (intros x ->; rewrite has_prefix_app in P; discriminate).
      rewrite IH. split; intros (z & db & F & ->); exists z, db; (split; [|reflexivity]); now apply flags_other in F || apply flags_other.
Qed.

Lemma cut_or_all_split d l r : cut_or_all d = (l, r) -> exists fs, split_on (B " ") d (l :: fs) /\ (fs = [] /\ r = [] \/ fs = split_byte " " r).
Proof.
  unfold cut_or_all. destruct (cut " " d) as [[a b]|] eqn:C; intros [= <- <-].
  - exists (split_byte " " b). split; [|auto]. apply (split_on_byte " "). apply cut_spec in C as [-> N]. now rewrite split_byte_app.
  - exists []. split; [|auto]. apply (split_on_byte " "). apply cut_none in C. now rewrite split_byte_notin.
Qed.
Lemma flag_empty m : flag_list m [[]] = (m, Ok tt).
Proof. reflexivity. Qed.

Lemma adcget_reads dec data m : adcget_unmarshal dec adcget0 data = (m, Ok tt) <-> adcget_read dec data m.
Proof.
  split.
  - intros H. unfold adcget_unmarshal in H. do 6 head_step H. cbv zeta in H. destruct (cut_or_all _) as [len r] eqn:C.
    destruct (cut_or_all_split _ _ _ C) as (fs & Sp & R).
    assert (K : exists z, (len = B "-1" /\ z = (-1)%Z \/ exists n, uint_read len n /\ z = wrapped64 n) /\ adcget_flags (length r) (mk_adcget a a0 a1 z false None) r = (m, Ok tt)).
    { destruct (bytes_eqb_spec len (B "-1")) as [->|_]; [exists (-1)%Z; split; [auto|exact H]|]. head_step H. rewrite (wrapped_iff len) in H by assumption.
      exists (wrapped64 a2). split; [right; eauto|exact H]. }
    destruct K as (z & Lz & K). rewrite flags_list in K by lia.
    assert (K' : flag_list (mk_adcget a a0 a1 z false None) fs = (m, Ok tt)) by (destruct R as [[-> ->]| ->]; exact K).
    apply flag_list_ok in K' as (c & db & F & ->). cbn [ag_type ag_ident ag_start ag_length ag_compressed ag_downloaded orb]. 
    replace (match db with Some n => Some n | None => None end) with db by (destruct db; reflexivity).
    eapply agr; eassumption.
  - intros [data' t r1 i r2 s r3 typ ident start len fs l z db F1 F2 F3 St Si Us Sp Hl Fl]. unfold adcget_unmarshal. repeat back_step.
    destruct (cut_or_all r3) as [l' r] eqn:C. destruct (cut_or_all_split _ _ _ C) as (fs' & Sp' & R).
    apply (split_on_byte " ") in Sp, Sp'. rewrite <- Sp' in Sp. injection Sp as <- <-.
    assert (K : forall x, adcget_flags (length r) (mk_adcget typ ident start x false None) r = (mk_adcget typ ident start x z db, Ok tt)).
    { intros x. rewrite flags_list by lia. replace (flag_list _ (split_byte " " r)) with (flag_list (mk_adcget typ ident start x false None) fs) by (destruct R as [[-> ->]| ->]; reflexivity).
      apply flag_list_ok. exists z, db. split; [exact Fl|]. destruct db; reflexivity. }
    destruct Hl as [[-> ->]|(n & U & ->)].
    + change (bytes_eqb (B "-1") (B "-1")) with true. cbv iota. apply K.
    + destruct (bytes_eqb_spec l (B "-1")) as [->|_].
      * exfalso. apply uint_iff in U. vm_compute in U. discriminate.
      * rewrite (proj2 (uint_iff l n) U). rewrite (wrapped_iff l n U). apply K.
Qed.

Lemma adcsnd_reads dec data m : adcsnd_unmarshal dec adcsnd0 data = (m, Ok tt) <-> adcsnd_read dec data m.
Proof.
  split.
  - intros H. unfold adcsnd_unmarshal in H. do 6 head_step H. cbv zeta in H. destruct (cut_or_all _) as [len r] eqn:C. head_step H. cbv zeta in H.
    assert (K : ~ In " "%byte len /\ (r = [] /\ l4 = len \/ l4 = len ++ B " " ++ r)).
    { unfold cut_or_all in C. destruct (cut " " l4) as [[x y]|] eqn:C'; injection C as <- <-; [apply cut_spec in C' as [-> N]|apply cut_none in C']; auto. }
    destruct K as [N K].
    assert (G : exists z, (l4 = len /\ z = false \/ l4 = len ++ B " " /\ z = false \/ l4 = len ++ B " ZL1" /\ z = true) /\ m = mk_adcsnd a a0 a1 a2 z).
    { destruct r as [|c r].
      - injection H as <-. exists false. split; [|reflexivity]. destruct K as [[_ K]|K]; [auto|]. right; left. auto.
      - destruct (bytes_eqb_spec (c :: r) (B "ZL1")) as [Er|]; [|discriminate]. injection H as <-. exists true. split; [|reflexivity]. right; right. split; [|reflexivity].
        destruct K as [[K _]|K]; [discriminate|]. rewrite Er in K. exact K. }
    destruct G as (z & G & ->). eapply asr; [..|exact G]; eassumption.
  - intros [data' t r1 i r2 s r3 typ ident start len l z F1 F2 F3 St Si Us Nl Ul Hz]. unfold adcsnd_unmarshal. repeat back_step. unfold cut_or_all.
    destruct Hz as [[-> ->]|[[-> ->]|[-> ->]]].
    + apply cut_none in Nl. rewrite Nl. repeat back_step. reflexivity.
    + change (l ++ B " ") with (l ++ " "%byte :: []). rewrite cut_app by exact Nl. repeat back_step. reflexivity.
    + change (l ++ B " ZL1") with (l ++ " "%byte :: B "ZL1"). rewrite cut_app by exact Nl. repeat back_step. reflexivity.
Qed.

Lemma direction_reads data m : direction_unmarshal direction0 data = (m, Ok tt) <-> direction_read data m.
Proof.
  split.
  - intros H. unfold direction_unmarshal in H. head_step H. cbv zeta in H. destruct E as [-> _].
    assert (G : forall up, (match parse_uint_trim l0 with
        | Err _ => (set_di_upload direction0 up, Err (EText "Direction: unable to parse field 2"))
        | Panic => (set_di_upload direction0 up, Panic)
        | Ok n => if ((n <? 1) || (32767 <? n))%N then (set_di_upload direction0 up, Err (EText "Direction: number outside range"))
                  else (set_di_number (set_di_upload direction0 up) n, Ok tt) end) = (m, Ok tt) -> exists n, uint_read l0 n /\ (1 <= n <= 32767)%N /\ m = mk_direction up n).
    { clear. intros up H. head_step H. destruct (N.ltb_spec a 1); [discriminate|]. destruct (N.ltb_spec 32767 a); [discriminate|]. injection H as <-. exists a. split; [assumption|]. split; [lia|reflexivity]. }
    destruct (bytes_eqb_spec l (B "Download")) as [->|_].
    + apply G in H as (n & U & R & ->). exact (dr false l0 n U R).
    + destruct (bytes_eqb_spec l (B "Upload")) as [->|_]; [|discriminate]. apply G in H as (n & U & R & ->). exact (dr true l0 n U R).
  - intros [up x n U R]. unfold direction_unmarshal. destruct up.
    + change (B "Upload" ++ B " " ++ x) with (B "Upload" ++ " "%byte :: x). rewrite cut_app by (apply contains_byte_false; reflexivity). cbv zeta. change (bytes_eqb (B "Upload") (B "Download")) with false. change (bytes_eqb (B "Upload") (B "Upload")) with true. cbv iota.
      repeat back_step. destruct (N.ltb_spec n 1); [lia|]. destruct (N.ltb_spec 32767 n); [lia|]. reflexivity.
    + change (B "Download" ++ B " " ++ x) with (B "Download" ++ " "%byte :: x). rewrite cut_app by (apply contains_byte_false; reflexivity). cbv zeta. change (bytes_eqb (B "Download") (B "Download")) with true. cbv iota.
      repeat back_step. destruct (N.ltb_spec n 1); [lia|]. destruct (N.ltb_spec 32767 n); [lia|]. reflexivity.
Qed.

(** ** Search *)

Lemma tth_iff s h : new_tth s = (h, Ok tt) <-> hash_read s h.
Proof.
  rewrite <- (hash_iff (repeat x00 hash_size)) by reflexivity. unfold new_tth. destruct (hash_unmarshal_base32 _ s) as [r x]. split; intros [= -> ->]; reflexivity.
Qed.
Lemma flag_iff f b : unmarshal_flag f = Ok b <-> f = flag_text b.
Proof.
  unfold unmarshal_flag, flag_text. split.
  - destruct f as [|c [|]]; try discriminate. destruct (beq_spec c "T") as [->|]; [intros [= <-]; reflexivity|]. destruct (beq_spec c "F") as [->|]; [intros [= <-]; reflexivity|discriminate].
  - intros ->. destruct b; reflexivity.
Qed.
Lemma replace_map p : replace_byte "$" " " p = map (fun c => if beq c "$" then " "%byte else c) p.
Proof. reflexivity. Qed.

Lemma search_what_ok dec m f m' : se_pattern m = [] -> se_tth m = None ->
  (search_what dec m f = (m', Ok tt) <-> exists pat tth, what_read dec (se_dtype m) f pat tth /\
     m' = mk_search (se_address m) (se_user m) (se_restricted m) (se_ismax m) (se_size m) (se_dtype m) pat tth).
Proof.
  intros P0 T0. unfold search_what. destruct (N.eqb_spec (se_dtype m) data_tth) as [D|D].
  - destruct (has_prefix (B "TTH:") f) eqn:P.
    + apply has_prefix_spec in P as [s ->]. change (skipn 4 (B "TTH:" ++ s)) with s. cbv zeta.
      assert (G : forall x, (let '(t, r) := new_tth x in (set_se_tth m (Some t), r)) = (m', Ok tt) <-> exists h, hash_read x h /\
         m' = mk_search (se_address m) (se_user m) (se_restricted m) (se_ismax m) (se_size m) (se_dtype m) [] (Some h)).
      { intros x. split.
        - destruct (new_tth x) as [h r] eqn:E. intros [= <- ->]. exists h. split; [now apply tth_iff|]. unfold set_se_tth. now rewrite P0.
        - intros (h & H & ->). apply tth_iff in H. rewrite H. unfold set_se_tth. now rewrite P0. }
      rewrite G. destruct (last_is "$" s) eqn:L.
      * assert (Es := last_is_true _ _ L). split.
        -- intros (h & H & ->). exists [], (Some h). split; [|reflexivity]. rewrite Es. now apply wr_hash_end.
        -- intros (pat & tth & W & ->). remember (B "TTH:" ++ s) as f eqn:Ef. destruct W as [s' h _ [N _]|s' h _ H|s' p N _].
           ++ apply app_inv_head in Ef as ->. exfalso. apply N. exists (drop_last s). exact Es.
           ++ apply app_inv_head in Ef as <-. change (B "$") with ["$"%byte]. rewrite drop_last_app. eauto.
           ++ exfalso. now apply N.
      * apply last_is_false in L. split.
        -- intros (h & H & ->). exists [], (Some h). split; [|reflexivity]. now apply wr_hash.
        -- intros (pat & tth & W & ->). remember (B "TTH:" ++ s) as f eqn:Ef. destruct W as [s' h _ [_ H]|s' h _ H|s' p N _].
           ++ apply app_inv_head in Ef as ->. eauto.
           ++ apply app_inv_head in Ef as <-. exfalso. apply L. now exists s'.
           ++ exfalso. now apply N.
    + split; [discriminate|]. intros (pat & tth & W & _). exfalso. destruct W as [s' h _ _|s' h _ _|s' p N _]; [rewrite has_prefix_app in P; discriminate..|]. now apply N.
  - split.
    + intros H. head_step H. injection H as <-. exists (replace_byte "$" " " a), None. split; [now apply wr_text|]. unfold set_se_pattern. now rewrite T0.
    + intros (pat & tth & W & ->). destruct W as [s' h N _|s' h N _|s' p _ H]; [contradiction..|]. repeat back_step. unfold set_se_pattern. rewrite T0, replace_map. reflexivity.
Qed.

Lemma search_reads dec data m : search_unmarshal dec search0 data = (m, Ok tt) <-> search_read dec data m.
Proof.
  assert (T : forall m addr user r, search_string dec (mk_search addr user false false 0 0 [] None) r = (m, Ok tt) <->
    exists rs mx f2 f3 f4 rs' size typ pat tth,
      r = flag_text rs ++ B "?" ++ flag_text mx ++ B "?" ++ f2 ++ B "?" ++ f3 ++ B "?" ++ f4 /\ ~ In "?"%byte f2 /\ ~ In "?"%byte f3 /\
      size_read rs f2 rs' size /\ uint_read f3 typ /\ what_read dec typ f4 pat tth /\ m = mk_search addr user rs' mx size typ pat tth).
  { clear m. intros m addr user r. unfold search_string. cbn [splitn_byte]. split.
    - intros H. destruct (cut "?" r) as [[f0 r1]|] eqn:C1; [|discriminate]. apply cut_spec in C1 as [-> N0].
      destruct (cut "?" r1) as [[f1 r2]|] eqn:C1; [|discriminate]. apply cut_spec in C1 as [-> N1].
      destruct (cut "?" r2) as [[f2 r3]|] eqn:C1; [|discriminate]. apply cut_spec in C1 as [-> N2].
      destruct (cut "?" r3) as [[f3 f4]|] eqn:C1; [|discriminate]. apply cut_spec in C1 as [-> N3].
      destruct (unmarshal_flag f0) as [rs|e|] eqn:F0; try discriminate. apply flag_iff in F0 as ->.
      destruct (unmarshal_flag f1) as [mx|e|] eqn:F1; try discriminate. apply flag_iff in F1 as ->. cbv zeta in H.
      destruct (search_size _ f2) as [m1 [[]|e|]] eqn:SZ; try discriminate.
      assert (K : exists rs' size, size_read rs f2 rs' size /\ m1 = mk_search addr user rs' mx size 0 [] None).
      { unfold search_size in SZ. destruct f2 as [|c t]; [injection SZ as <-; exists rs, 0%N; split; [constructor|reflexivity]|]. destruct (beq_spec c "-") as [->|Nc].
        - destruct (parse_uint_trim t) as [n|e|] eqn:U; try discriminate. apply uint_iff in U. injection SZ as <-. exists false, 0%N. split; [|reflexivity]. change ("-"%byte :: t) with (B "-" ++ t). now apply szr_negative with n.
        - destruct (parse_uint_trim (c :: t)) as [n|e|] eqn:U; try discriminate. apply uint_iff in U. injection SZ as <-. exists rs, n. split; [|reflexivity]. apply szr_number; [|exact U]. intros [x E]. injection E as -> _. contradiction. }
      destruct K as (rs' & size & SR & ->). head_step H. apply search_what_ok in H as (pat & tth & W & ->); [|reflexivity|reflexivity]. cbn in W.
      exists rs, mx, f2, f3, f4, rs', size, a, pat, tth. repeat split; assumption.
    - intros (rs & mx & f2 & f3 & f4 & rs' & size & typ & pat & tth & -> & N2 & N3 & SR & U & W & ->).
      change (flag_text rs ++ B "?" ++ flag_text mx ++ B "?" ++ f2 ++ B "?" ++ f3 ++ B "?" ++ f4) with (flag_text rs ++ "?"%byte :: flag_text mx ++ "?"%byte :: f2 ++ "?"%byte :: f3 ++ "?"%byte :: f4).
      assert (NF : forall b, ~ In "?"%byte (flag_text b)) by (intros []; intros [X|[]]; discriminate).
      rewrite cut_app by apply NF. rewrite cut_app by apply NF. rewrite cut_app by exact N2. rewrite cut_app by exact N3.
      rewrite (proj2 (flag_iff (flag_text rs) rs) eq_refl), (proj2 (flag_iff (flag_text mx) mx) eq_refl). cbv zeta.
      match goal with |- context [search_size ?x f2] => replace (search_size x f2) with (mk_search addr user rs' mx size 0 [] None, @Ok unit tt) end.
      + repeat back_step. apply search_what_ok; [reflexivity|reflexivity|]. exists pat, tth. auto.
      + symmetry. unfold search_size. destruct SR as [|x n Un|f2 n Nm Un].
        * reflexivity.
        * change (B "-" ++ x) with ("-"%byte :: x). change (beq "-" "-") with true. cbv iota. rewrite (proj2 (uint_iff x n) Un). reflexivity.
        * destruct f2 as [|c t].
          -- exfalso. apply uint_iff in Un. vm_compute in Un. discriminate.
          -- destruct (beq_spec c "-") as [->|_]; [exfalso; apply Nm; exists t; reflexivity|]. rewrite (proj2 (uint_iff (c :: t) n) Un). reflexivity. }
  split.
  - intros H. unfold search_unmarshal in H. head_step H. destruct (has_prefix (B "Hub:") l) eqn:P.
    + apply has_prefix_spec in P as [n ->]. change (skipn 4 (B "Hub:" ++ n)) with n in H. head_step H.
      apply (T _ [] a) in H as (rs & mx & f2 & f3 & f4 & rs' & size & typ & pat & tth & -> & N2 & N3 & SR & U & W & ->).
      eapply sr_search; [exact E|left; exists n; auto|reflexivity|exact N2|exact N3|exact SR|exact U|exact W].
    + apply (T _ l []) in H as (rs & mx & f2 & f3 & f4 & rs' & size & typ & pat & tth & -> & N2 & N3 & SR & U & W & ->).
      eapply sr_search; [exact E|right|reflexivity|exact N2|exact N3|exact SR|exact U|exact W]. split; [|auto]. intros [x ->]. rewrite has_prefix_app in P. discriminate.
  - intros [data' who r f2 f3 f4 addr user rs rs' mx size typ pat tth F Who -> N2 N3 SR U W]. unfold search_unmarshal. repeat back_step.
    destruct Who as [(n & -> & Nn & ->)|(N & -> & ->)].
    + rewrite has_prefix_app. change (skipn 4 (B "Hub:" ++ n)) with n. repeat back_step. apply (T _ [] user).
      exists rs, mx, f2, f3, f4, rs', size, typ, pat, tth. repeat split; assumption.
    + destruct (has_prefix (B "Hub:") who) eqn:P; [apply has_prefix_spec in P; contradiction|]. apply (T _ who []).
      exists rs, mx, f2, f3, f4, rs', size, typ, pat, tth. repeat split; assumption.
Qed.

(** ** Search results *)

Lemma slots_unique p c d : forall q e f, p ++ c :: d = q ++ e :: f -> ~ slot_char c -> ~ slot_char e -> Forall slot_char d -> Forall slot_char f -> p = q /\ c = e /\ d = f.
Proof.
  induction p as [|x p IH]; intros [|y q] e f E Nc Ne Fd Ff; cbn in E.
  - injection E as <- <-. auto.
  - exfalso. injection E as -> E. rewrite E in Fd. apply Forall_app in Fd as [_ Fd]. inversion Fd; contradiction.
  - exfalso. injection E as -> E. rewrite <- E in Ff. apply Forall_app in Ff as [_ Ff]. inversion Ff; contradiction.
  - injection E as -> E. destruct (IH _ _ _ E Nc Ne Fd Ff) as (-> & -> & ->). auto.
Qed.
Lemma scan_iff x p slots : sr_scan (rev x) false [] = (true, Some (p, slots)) <-> exists c, x = p ++ [c] ++ slots /\ ~ slot_char c /\ Forall slot_char slots /\ In "/"%byte slots.
Proof.
  destruct (sr_scan_spec (rev x) false []) as [(d & c & a & E & Fd & Hc & R)|[Fr E]].
  - apply (f_equal (@rev byte)) in E. rewrite rev_involutive, rev_app_distr in E. cbn [rev] in E. rewrite !rev_involutive, <- app_assoc in E. cbn [app] in E.
    rewrite R, app_nil_r. cbn [orb]. split.
    + intros [= K <- <-]. exists c. apply contains_byte_spec in K. auto.
    + intros (e & Ex & Ne & Fs & I). rewrite Ex in E. destruct (slots_unique _ _ _ _ _ _ E Ne Hc Fs Fd) as (<- & <- & <-).
      rewrite (proj2 (contains_byte_spec _ _)) by exact I. reflexivity.
  - split; [intros K; rewrite K in E; discriminate|]. intros (e & Ex & Ne & _). exfalso. apply Ne. rewrite Forall_forall in Fr. apply Fr. apply in_rev. rewrite rev_involutive, Ex. apply in_app_iff. right. left. reflexivity.
Qed.
Lemma scan_none x : (forall p slots, sr_scan (rev x) false [] <> (true, Some (p, slots))) <-> ~ slots_like x.
Proof.
  split.
  - intros H (a & c & d & -> & Nc & Fd & I). apply (H a d). apply scan_iff. exists c. auto.
  - intros H p slots K. apply scan_iff in K as (c & -> & Nc & Fs & I). apply H. exists p, c, slots. auto.
Qed.

Lemma tail_iff dec m s m' : sr_to m = [] -> (sr_tail dec m s = (m', Ok tt) <->
  exists addr r to, first (B ")") s addr r /\ target_read dec r to /\
    m' = mk_sr (sr_from m) (sr_path m) (sr_isdir m) (sr_size m) (sr_free m) (sr_total m) (sr_hubname m) (sr_tth m) addr to).
Proof.
  intros T0. split.
  - intros H. unfold sr_tail in H. head_step H. cbv zeta in H. destruct l0 as [|c [|c' l0]]; [|discriminate|].
    + injection H as <-. exists l, [], []. split; [exact E|]. split; [constructor|]. unfold set_sr_hubaddr. now rewrite T0.
    + destruct (beq_spec c sr_sep) as [->|]; [|discriminate]. head_step H. injection H as <-. exists l, (sr_sep :: c' :: l0), a. split; [exact E|]. split; [|reflexivity].
      apply tr_some; [discriminate|exact E0].
  - intros (addr & r & to & F & T & ->). unfold sr_tail. repeat back_step. destruct T as [|n to Nn Hn].
    + unfold set_sr_hubaddr. rewrite T0. reflexivity.
    + destruct n as [|c n]; [contradiction|]. change (beq x05 sr_sep) with true. cbv iota. repeat back_step. reflexivity.
Qed.
Lemma hub_iff dec m s m' : sr_to m = [] -> sr_hubname m = [] -> sr_tth m = None -> (sr_hub dec m s = (m', Ok tt) <->
  exists hub tth rest addr r to, hub_read dec s hub tth rest /\ first (B ")") rest addr r /\ target_read dec r to /\
    m' = mk_sr (sr_from m) (sr_path m) (sr_isdir m) (sr_size m) (sr_free m) (sr_total m) hub tth addr to).
Proof.
  intros T0 N0 H0. unfold sr_hub. destruct (has_prefix (B "TTH:") s) eqn:P.
  - apply has_prefix_spec in P as [d ->]. change (skipn 4 (B "TTH:" ++ d)) with d. cbv zeta. split.
    + intros H. destruct (has_prefix (B " (") (skipn base32_size d)) eqn:Q; [|discriminate]. apply has_prefix_spec in Q as [rest Er].
      destruct (new_tth (firstn base32_size d)) as [h r] eqn:N. destruct r as [[]|e|]; try discriminate. apply tth_iff in N.
      replace (skipn (base32_size + 2) d) with rest in H.
      2: { assert (E2 : forall n k (x : bytes), skipn n (skipn k x) = skipn (k + n) x) by (clear; intros n k; induction k as [|k IH]; intros [|c x]; cbn; [reflexivity..|destruct n; reflexivity|apply IH]). rewrite <- E2, Er. reflexivity. }
      apply tail_iff in H as (addr & r & to & F & T & ->); [|exact T0]. cbn. rewrite N0.
      exists [], (Some h), rest, addr, r, to. split; [|auto].
      rewrite <- (firstn_skipn base32_size d), Er. apply hbr_hash; [|exact N]. apply firstn_length_le.
      assert (L : length (skipn base32_size d) = 2 + length rest) by (rewrite Er; reflexivity). rewrite skipn_length in L. change base32_size with 39 in *. lia.
    + intros (hub & tth & rest & addr & r & to & Hr & F & T & ->). remember (B "TTH:" ++ d) as x eqn:Ex. destruct Hr as [t h rest L Hh|s n rest hub Ns _ _].
      * apply app_inv_head in Ex as <-. change base32_size with 39 in *. rewrite <- L.
        rewrite skipn_app_exact, firstn_app_exact. rewrite has_prefix_app. rewrite (proj2 (tth_iff t h) Hh).
        replace (skipn (length t + 2) (t ++ B " (" ++ rest)) with rest by (rewrite app_assoc; replace (length t + 2) with (length (t ++ B " (")) by (rewrite app_length; reflexivity); now rewrite skipn_app_exact).
        apply tail_iff; [exact T0|]. exists addr, r, to. cbn. rewrite N0. auto.
      * exfalso. apply Ns. exists d. exact Ex.
  - split.
    + intros H. head_step H. head_step H. apply tail_iff in H as (addr & r & to & F & T & ->); [|exact T0]. cbn. rewrite H0.
      exists a, None, l0, addr, r, to. split; [|auto]. apply hbr_name with l; [|exact E|exact E0]. intros [x ->]. rewrite has_prefix_app in P. discriminate.
    + intros (hub & tth & rest & addr & r & to & Hr & F & T & ->). destruct Hr as [t h rest L Hh|s n rest hub Ns Hf Hs]; [rewrite has_prefix_app in P; discriminate|].
      repeat back_step. apply tail_iff; [exact T0|]. exists addr, r, to. cbn. rewrite H0. auto.
Qed.
Lemma slots_iff dec m p slots s m' : sr_to m = [] -> sr_hubname m = [] -> sr_tth m = None -> (sr_slots dec m p slots s = (m', Ok tt) <->
  exists path f t free total hub tth rest addr r to, path_read dec p path /\ first (B "/") slots f t /\ int_read f free /\ int_read t total /\
    hub_read dec s hub tth rest /\ first (B ")") rest addr r /\ target_read dec r to /\
    m' = mk_sr (sr_from m) path (sr_isdir m) (sr_size m) free total hub tth addr to).
Proof.
  intros T0 N0 H0. split.
  - intros H. unfold sr_slots in H. do 4 head_step H. cbv zeta in H.
    apply hub_iff in H as (hub & tth & rest & addr & r & to & Hr & F & T & ->); [|exact T0|exact N0|exact H0]. cbn.
    exists (split_byte "\" p), l, l0, a0, a1, hub, tth, rest, addr, r, to. split; [|auto 10]. split; [eauto|]. now apply (split_on_byte "\").
  - intros (path & f & t & free & total & hub & tth & rest & addr & r & to & ([u Hp] & Sp) & F & Hf & Ht & Hr & Fr & T & ->).
    unfold sr_slots. repeat back_step. apply hub_iff; [exact T0|exact N0|exact H0|]. rewrite (proj1 (split_on_byte "\" p path) Sp).
    exists hub, tth, rest, addr, r, to. cbn. auto.
Qed.

Lemma sr_reads dec data m : sr_unmarshal dec sr0 data = (m, Ok tt) <-> sr_read dec data m.
Proof.
  split.
  - intros H. unfold sr_unmarshal in H. do 3 head_step H. cbv zeta in H.
    destruct (sr_scan (rev l1) false []) as [b o] eqn:SC.
    assert (C : (exists p sl, b = true /\ o = Some (p, sl)) \/ (forall p sl, (b, o) <> (true, Some (p, sl)))).
    { destruct b, o as [[p sl]|]; [left; eauto|right; discriminate..]. }
    destruct C as [(p & sl & -> & ->)|C].
    + apply scan_iff in SC as (c & -> & Nc & Fs & I).
      apply slots_iff in H as (path & f & t & free & total & hub & tth & rest & addr & r & to & Hp & F & Hf & Ht & Hr & Fr & T & ->); [|reflexivity..]. cbn.
      eapply srr with (isdir := true); [exact E|exact E0|exact E1| |exact Hp|exact F|exact Hf|exact Ht|exact Hr|exact Fr|exact T].
      left. eauto 10.
    + assert (H' : (let m0 := set_sr_isdir (set_sr_from sr0 a) false in
        match cut sr_sep l2 with
        | None => (m0, Err (EText "invalid SR command: missing size"))
        | Some (sizeslots, data0) =>
            match cut " " sizeslots with
            | None => (m0, Err (EText "invalid SR command: missing size separator"))
            | Some (size, slots) => match parse_uint_trim size with Ok n => sr_slots dec (set_sr_size m0 n) l1 slots data0 | Err e => (m0, Err e) | Panic => (m0, Panic) end
            end
        end) = (m, Ok tt)) by (destruct b, o as [[? ?]|]; [exfalso; eapply C; reflexivity|exact H..]).
      clear H. do 3 head_step H'.
      apply slots_iff in H' as (path & f & t & free & total & hub & tth & rest & addr & r & to & Hp & F & Hf & Ht & Hr & Fr & T & ->); [|reflexivity..]. cbn.
      eapply srr with (isdir := false); [exact E|exact E0|exact E1| |exact Hp|exact F|exact Hf|exact Ht|exact Hr|exact Fr|exact T].
      right. split; [reflexivity|]. split; [apply scan_none; intros p sl; rewrite SC; apply C|]. split; [reflexivity|]. eauto 10.
  - intros [data' n r1 x r2 from p path isdir size slots r3 f t free total hub tth rest addr r4 to F1 Hn F2 K Hp F3 Hf Ht Hr F4 T].
    unfold sr_unmarshal. change sr_sep with x05. repeat back_step. destruct K as [(-> & -> & -> & K)|(-> & K & -> & ss & s & F5 & F6 & U)].
    + rewrite (proj2 (scan_iff x p slots) K). apply slots_iff; [reflexivity..|]. cbn. eauto 20.
    + pose proof (proj2 (scan_none x) K) as SN. destruct (sr_scan (rev x) false []) as [b o].
      assert (G : forall y z : sr * res unit, (match (b, o) with (true, Some (p, sl)) => y | _ => z end) = z) by (intros; destruct b, o as [[? ?]|]; [exfalso; eapply SN; reflexivity|reflexivity..]).
      assert (G' : sr_slots dec (set_sr_size (set_sr_isdir (set_sr_from sr0 from) false) size) x slots r3 = (mk_sr from path false size free total hub tth addr to, Ok tt)).
      { apply slots_iff; [reflexivity..|]. cbn. eauto 20. }
      destruct b, o as [[? ?]|]; [exfalso; eapply SN; reflexivity|repeat back_step; exact G'..].
Qed.

Lemma hash_space_split data h c x : skipn base32_size data = c :: x -> hash_unmarshal_base32 (repeat x00 hash_size) (firstn base32_size data) = (Ok tt, h) ->
  data = firstn base32_size data ++ c :: x /\ length (firstn base32_size data) = 39 /\ hash_read (firstn base32_size data) h.
Proof.
  intros Sk Hh. rewrite <- Sk, firstn_skipn. split; [reflexivity|]. split; [|apply hash_iff in Hh; [exact Hh|reflexivity]].
  apply firstn_length_le. assert (L : length (skipn base32_size data) = S (length x)) by (rewrite Sk; reflexivity). rewrite skipn_length in L. change base32_size with 39 in *. lia.
Qed.
Lemma sa_reads data m : sa_unmarshal sa0 data = (m, Ok tt) <-> sa_read data m.
Proof.
  split.
  - unfold sa_unmarshal. destruct (skipn base32_size data) as [|c x] eqn:Sk; [discriminate|]. destruct (beq_spec c " ") as [->|]; [|discriminate].
    change (sa_tth sa0) with (repeat x00 hash_size). destruct (hash_unmarshal_base32 _ _) as [r h] eqn:Hh. cbv zeta. destruct r as [[]|e|]; [|discriminate..].
    intros [= <-]. destruct (hash_space_split _ _ _ _ Sk Hh) as (E & L & R). rewrite E. now apply sar.
  - intros [t h a L Hh]. unfold sa_unmarshal. change base32_size with 39. rewrite <- L. rewrite skipn_app_exact, firstn_app_exact. change (B " " ++ a) with (" "%byte :: a). change (beq " " " ") with true. cbv iota.
    rewrite (proj2 (hash_iff (sa_tth sa0) t h eq_refl) Hh). reflexivity.
Qed.
Lemma sp_reads dec data m : sp_unmarshal dec sp0 data = (m, Ok tt) <-> sp_read dec data m.
Proof.
  split.
  - unfold sp_unmarshal. destruct (skipn base32_size data) as [|c x] eqn:Sk; [discriminate|]. destruct (beq_spec c " ") as [->|]; [|discriminate].
    change (sp_tth sp0) with (repeat x00 hash_size). destruct (hash_unmarshal_base32 _ _) as [r h] eqn:Hh. cbv zeta. destruct r as [[]|e|]; [|discriminate..].
    intros H. head_step H. injection H as <-. destruct (hash_space_split _ _ _ _ Sk Hh) as (E' & L & R). rewrite E'. now apply spr.
  - intros [t h n user L Hh Hn]. unfold sp_unmarshal. change base32_size with 39. rewrite <- L. rewrite skipn_app_exact, firstn_app_exact. change (B " " ++ n) with (" "%byte :: n). change (beq " " " ") with true. cbv iota.
    rewrite (proj2 (hash_iff (sp_tth sp0) t h eq_refl) Hh). cbv zeta. repeat back_step. reflexivity.
Qed.
