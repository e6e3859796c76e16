(** Decoding ADC messages is what the specification says. *)
From Coq Require Import Permutation.
From Verif Require Import Base BaseFacts Num NumFacts NumSpec SpecText Base32 Base32Facts Tiger SpecHash TigerFacts.
From Verif Require Import AdcText SpecAdc AdcTextFacts AdcValue AdcValueFacts AdcMessage AdcPacket SpecAdcMessage AdcMessageFacts AdcCustomFacts.
From Verif Require Import SpecAdcRead.

Lemma parts_split c x l : parts c x l <-> split_byte c x = l.
Proof.
  split.
  - intros (N & F & ->). apply split_byte_join; [assumption|]. now rewrite Forall_forall in F.
  - intros <-. split; [apply split_byte_not_nil|]. split; [|symmetry; apply join_split_byte]. apply Forall_forall. intros w W. exact (split_byte_pieces _ _ _ W).
Qed.

Lemma unescape_iff e s : unescape e = s <-> denotes_text e s.
Proof. split; [intros <-; apply unescape_denotes|intros H; symmetry; now apply denotes_unescape]. Qed.
Lemma unescapes es l : map unescape es = l <-> Forall2 denotes_text es l.
Proof.
  revert l. induction es as [|e es IH]; intros l; cbn [map].
  - split; [intros <-; constructor|inversion 1; reflexivity].
  - split.
    + intros <-. constructor; [apply unescape_denotes|now apply IH].
    + inversion 1 as [|? s ? l' D F]; subst. f_equal; [now apply unescape_iff|now apply IH].
Qed.

Lemma hash_text_ok h0 s h : length h0 = 24 -> (hash_from_base32 h0 s = (Ok tt, h) <-> hash_text_read s h).
Proof.
  intros H0. rewrite (from_base32_ok h0 s h H0). unfold hash_text_read, ignored_tail. split.
  - intros (L & t & tail & r & A & B' & C & D & E). split; [exact L|]. exists t, tail, r. auto.
  - intros (L & t & tail & r & A & B' & C & D & E). split; [exact L|]. exists t, tail, r. auto.
Qed.
Lemma hash_text_ok' h0 s h : length h0 = 24 -> (of_hash (hash_unmarshal_base32 h0 s) = Ok h <-> hash_text_read s h).
Proof.
  intros H0. rewrite <- (hash_text_ok h0 s h H0).
  assert (P := unmarshal_panics h0 s H0). assert (A := unmarshal_agrees h0 s H0).
  destruct (hash_unmarshal_base32 h0 s) as [[[]|e|] h1] eqn:U; cbn [of_hash fst snd] in *.
  - destruct (A ltac:(discriminate)) as [E F]. destruct (hash_from_base32 h0 s) as [r h2]. cbn [fst snd] in *. rewrite <- E in *. specialize (F eq_refl). subst.
    split; intros [= ->]; reflexivity.
  - destruct (A ltac:(discriminate)) as [E F]. destruct (hash_from_base32 h0 s) as [r h2]. cbn [fst snd] in *. rewrite <- E in *. split; discriminate.
  - split; [discriminate|]. intros H. exfalso. assert (O : overlong s) by (now apply P). clear P A U.
    apply (from_base32_ok h0 s h H0) in H. destruct H as (_ & t & tail & r & E & L & T & _ & (vs & F & _)).
    destruct O as (t' & rest & vs' & E' & L' & F'). rewrite E in E'.
    apply symbols_map_inv in F, F'. destruct F as [-> F], F' as [-> F']. rewrite !map_length in *.
    apply ignored_no_symbol in T. destruct vs' as [|]; [discriminate|]. 
    assert (G : firstn 40 (map sym vs ++ tail) = map sym (n :: vs')) by (rewrite E', firstn_app, map_length, L', Nat.sub_diag, app_nil_r, firstn_all2; [reflexivity|rewrite map_length; lia]).
    rewrite firstn_app, map_length, L, firstn_all2 in G by (rewrite map_length; lia).
    assert (X : length (map sym (n :: vs')) = 40) by (now rewrite map_length). rewrite <- G, app_length, map_length, L, firstn_length in X.
    destruct tail as [|c tail]; [cbn in X; lia|]. cbn [Nat.sub firstn] in G.
    assert (I : In c (map sym (n :: vs'))) by (rewrite <- G; apply in_or_app; right; now left).
    apply in_map_iff in I. destruct I as (v & <- & I). rewrite Forall_forall in F'. apply F' in I. apply sym_facts in I. destruct I as (_ & I & _). congruence.
Qed.
Lemma cid_text_ok h0 s h : of_hash (cid_from_base32 h0 s) = Ok h <-> hash_text_read s h.
Proof.
  rewrite <- (hash_text_ok (repeat x00 hash_size) s h) by reflexivity. unfold cid_from_base32.
  destruct (hash_from_base32 (repeat x00 hash_size) s) as [[[]|e|] h1]; cbn [of_hash]; split; try discriminate; intros [= ->]; reflexivity.
Qed.

Lemma features_loop_iff sub l : features_loop sub = Ok l <-> sub = l /\ Forall (fun f => length f = 4) l.
Proof.
  revert l. induction sub as [|s sub IH]; intros l; cbn [features_loop].
  - split; [intros [= <-]; auto|now intros [<- _]].
  - unfold feature_unmarshal. destruct (length s =? 4)%nat eqn:E; cbn [bind].
    + split.
      * intros H. apply bind_ok in H. destruct H as (l' & H & [= <-]). apply IH in H. destruct H as [-> H].
        split; [reflexivity|]. constructor; [now apply Nat.eqb_eq|assumption].
      * intros [<- F]. inversion F; subst. assert (G : features_loop sub = Ok sub) by (now apply IH). now rewrite G.
    + split; [discriminate|]. intros [<- F]. inversion F; subst. apply Nat.eqb_neq in E. contradiction.
Qed.

Section Decode.
Variable pf : bytes -> float_result.

Lemma value_iff k : forall x old v, sized k old -> (unmarshal_value pf k x old = Ok v <-> value_read pf k x old v).
Proof.
  induction k; intros x old v Z; try apply number_spec; cbn [unmarshal_value value_read val sized] in *.
  - rewrite <- unescape_iff. split; [intros [= H]; exact H|now intros ->].
  - destruct x as [|c [|d x]].
    + split; [intros [= <-]; auto|]. intros [[_ ->]|(c & E & _)]; [reflexivity|discriminate].
    + split.
      * intros [= <-]. right. exists c. split; [reflexivity|]. rewrite negb_true_iff, beq_false. tauto.
      * intros [[E _]|(c' & [= <-] & H)]; [discriminate|]. f_equal. destruct v.
        -- apply negb_true_iff, beq_false. now apply H.
        -- apply negb_false_iff. destruct (beq c x00) eqn:D; [reflexivity|]. apply beq_false in D. apply H in D. discriminate.
    + split; [discriminate|]. intros [[E _]|(c' & E & _)]; discriminate.
  - unfold sid_unmarshal. destruct (length x =? 4)%nat eqn:E.
    + apply Nat.eqb_eq in E. split; [intros [= <-]; auto|now intros [-> _]].
    + apply Nat.eqb_neq in E. split; [discriminate|now intros [_ L]].
  - apply cid_text_ok.
  - now apply hash_text_ok'.
  - unfold features_unmarshal. destruct x as [|c x].
    + split; [intros [= <-]; auto|]. intros [[_ ->]|[N _]]; [reflexivity|congruence].
    + rewrite features_loop_iff. split.
      * intros [<- F]. right. split; [discriminate|]. split; [now apply parts_split|assumption].
      * intros [[E _]|(_ & P & F)]; [discriminate|]. apply parts_split in P. auto.
  - unfold path_unmarshal. split.
    + intros [= <-]. exists (split_byte "/" x), (map unescape (split_byte "/" x)). split; [now apply parts_split|]. split; [now apply unescapes|reflexivity].
    + intros (es & l & P & D & ->). apply parts_split in P. apply unescapes in D. now rewrite P, D.
  - destruct x as [|c x]; split; try discriminate; [intros [= <-]; auto|now intros [_ ->]|intros [E _]; discriminate].
  - destruct x as [|c x].
    + split; [intros [= <-]; auto|]. intros [[_ ->]|[N _]]; [reflexivity|congruence].
    + assert (Y : forall y, unmarshal_value pf k (c :: x) (zero k) = Ok y <-> value_read pf k (c :: x) (zero k) y) by (intros y; apply IHk; now destruct k).
      split.
      * intros H. apply bind_ok in H. destruct H as (y & H & [= <-]). right. split; [discriminate|]. exists y. split; [reflexivity|now apply Y].
      * intros [[E _]|(_ & y & -> & H)]; [discriminate|]. apply Y in H. now rewrite H.
Qed.

Lemma named_iff k vs old v : sized k old -> (unmarshal_tagged pf k vs old = Ok v <-> named_read pf k vs old v).
Proof.
  intros Z. unfold unmarshal_tagged, named_read. destruct vs as [|x more]; [split; [intros [= <-]; auto|now intros ->]|].
  assert (V := fun v => value_iff k x old v Z).
  destruct k; cbn [unmarshaler]; try apply V.
  all: try (destruct more as [|y more]; [rewrite V; intuition|split; [discriminate|now intros [E _]]]).
  rewrite <- unescapes. split; [intros [= <-]; reflexivity|now intros <-].
Qed.

Definition short_tag (f : field) : bool := (bytes_eqb (f_tag f) (B "#") || (length (f_tag f) =? 2)%nat)%bool.

Lemma fields_iff fs : forall ws old v, forallb short_tag fs = true -> sized_all fs old ->
  (unmarshal_fields pf fs ws old = Ok v <-> fields_read pf fs ws old v).
Proof.
  induction fs as [|f r IH]; intros ws old v T Z; cbn [unmarshal_fields fields_read vals] in *.
  - destruct v. split; auto.
  - cbn [forallb] in T. apply andb_true_iff in T as [T T']. destruct Z as [Z Z']. destruct v as [x l]. cbn [fst snd].
    unfold positional. unfold short_tag in T. destruct (bytes_eqb (f_tag f) (B "#")) eqn:P.
    + apply bytes_eqb_true in P. destruct ws as [|w ws].
      * split; [discriminate|]. intros [(_ & w & ws' & E & _)|(N & _)]; [discriminate|contradiction].
      * split.
        -- intros H. apply bind_ok in H. destruct H as (y & H & G). apply bind_ok in G. destruct G as (l' & G & [= -> ->]).
           left. split; [assumption|]. exists w, ws. split; [reflexivity|]. split; [now apply value_iff|now apply IH].
        -- intros [(_ & w' & ws' & [= <- <-] & H & G)|(N & _)]; [|contradiction]. apply value_iff in H; [|assumption]. apply IH in G; try assumption.
           now rewrite H, G.
    + apply bytes_eqb_false in P. cbn [orb] in T. apply Nat.eqb_eq in T. rewrite values_tagged by assumption. split.
      * intros H. apply bind_ok in H. destruct H as (y & H & G). apply bind_ok in G. destruct G as (l' & G & [= -> ->]).
        right. split; [assumption|]. split; [now apply named_iff|now apply IH].
      * intros [(N & _)|(_ & H & G)]; [contradiction|]. apply named_iff in H; [|assumption]. apply IH in G; try assumption. now rewrite H, G.
Qed.

Lemma struct_iff t s ws old v : separated s ws -> sized_all (fields_of t) old ->
  (unmarshal_struct pf (fields_of t) s old = Ok v <-> fields_read pf (fields_of t) ws old v).
Proof.
  intros W Z. unfold unmarshal_struct. rewrite (separated_split _ _ W). apply fields_iff; [destruct t; vm_compute; reflexivity|assumption].
Qed.
End Decode.

(** ** Base32 *)
Lemma pad_padding j tail : j < 8 -> (pad_ok j tail = true <->
  (tail = [] \/ exists y, tail = xff :: y /\ (j = 2 \/ j = 4 \/ j = 5 \/ j = 7) /\ 7 - j <= length y <= 7 /\ Forall (eq xff) (firstn (7 - j) y))).
Proof.
  intros J. destruct tail as [|c t]; [cbn; intuition|]. cbn [pad_ok].
  rewrite !andb_true_iff, !negb_true_iff, orb_false_iff, beq_true, !Nat.eqb_neq, forallb_forall, Nat.leb_le, Nat.ltb_lt, Nat.ltb_ge.
  assert (F : (forall x, In x (firstn (7 - j) t) -> beq x xff = true) <-> Forall (eq xff) (firstn (7 - j) t)).
  { rewrite Forall_forall. split; intros H x I; [symmetry; apply beq_true; now apply H|rewrite (H x I); apply beq_refl]. }
  rewrite F. clear F. split.
  - intros (((((-> & A) & B') & C) & D) & E). right. exists t. split; [reflexivity|]. split; [lia|]. split; [lia|exact D].
  - intros [E|(y & [= -> ->] & A & B' & D)]; [discriminate|]. repeat split; try lia. exact D.
Qed.

Lemma bytes_pack j : j < 8 -> bytes_of_symbols j = pack_bits j / 8.
Proof. intros H. do 8 (destruct j as [|j]; [reflexivity|]). lia. Qed.

Lemma base32_iff x b : b32_decode [] (unbroken x) = (b, None) <-> base32_read x b.
Proof.
  destruct (decode_char (unbroken x) [] ltac:(cbn; lia)) as (ws & tail & E & W & T & D). cbn [app] in D. rewrite D. clear D.
  destruct (packs_length ws) as [L _]. destruct (packs_bits ws W) as (r & R).
  assert (J : length ws mod 8 < 8) by (apply Nat.mod_upper_bound; lia).
  assert (D : decoded (length ws) = 5 * (length ws / 8) + bytes_of_symbols (length ws mod 8)).
  { unfold decoded. rewrite (bytes_pack _ J). reflexivity. }
  split.
  - destruct (pad_ok (length ws mod 8) tail) eqn:P; [|discriminate]. intros [= <-]. apply (pad_padding _ _ J) in P.
    exists (map sym ws), tail, r. split; [assumption|]. split; [exists ws; split; [now apply symbols_map|now symmetry]|].
    rewrite map_length. split; [now rewrite L|]. destruct P as [->|(y & -> & A)]; [now left|]. right. exists (length ws mod 8), y. tauto.
  - intros (t & tail' & r' & E' & (vs & F & G) & L' & P). apply symbols_map_inv in F. destruct F as [-> F]. rewrite map_length in *.
    rewrite E in E'. apply symbols_prefix_unique in E'; auto.
    2:{ destruct P as [->|(j & y & _ & -> & _)]; [exact I|reflexivity]. }
    destruct E' as [<- <-]. assert (P' : pad_ok (length ws mod 8) tail = true).
    { apply (pad_padding _ _ J). destruct P as [->|(j & y & -> & -> & A)]; [now left|]. right. exists y. tauto. }
    rewrite P'. f_equal. rewrite R in G. apply app_inv_len in G; [destruct G as [G _]; symmetry; now apply bits_bytes_inj|].
    rewrite !flat_map_bits8_length. lia.
Qed.

Lemma salt_iff s salt : gpa_unmarshal s = Ok salt <-> salt_read s salt.
Proof.
  unfold gpa_unmarshal, salt_read, b32_decode_to. rewrite strip_unbroken.
  assert (T := gpa_total (fun _ => FErr) s). unfold gpa_unmarshal, b32_decode_to in T. rewrite strip_unbroken in T.
  destruct (b32_decode [] (unbroken s)) as [b e] eqn:D. rewrite repeat_length in *. destruct (b32_decoded_len (length s) <? length b)%nat eqn:L; [congruence|].
  apply Nat.ltb_ge in L. assert (K : skipn (length b) (repeat x00 (b32_decoded_len (length s))) = repeat x00 (length s * 5 / 8 - length b)).
  { unfold b32_decoded_len in *. replace (length s * 5 / 8) with (length b + (length s * 5 / 8 - length b)) at 1 by lia. rewrite repeat_app, skipn_app, repeat_length, Nat.sub_diag.
    rewrite skipn_all2 by (rewrite repeat_length; lia). reflexivity. }
  rewrite K. destruct e as [e|].
  - split; [discriminate|]. intros (b' & R & _). apply base32_iff in R. congruence.
  - split.
    + intros [= <-]. exists b. split; [now apply base32_iff|reflexivity].
    + intros (b' & R & ->). apply base32_iff in R. rewrite D in R. now injection R as ->.
Qed.

(** ** Requests for files *)
Lemma get_iff s g old : g_comp old = false -> (get_unmarshal old s = Ok g <-> get_read s g).
Proof.
  intros O. unfold get_unmarshal, get_read. split.
  - destruct (cut " " s) as [[t s1]|] eqn:C1; [|discriminate]. destruct (cut " " s1) as [[p s2]|] eqn:C2; [|discriminate].
    destruct (cut " " s2) as [[a s3]|] eqn:C3; [|discriminate]. apply cut_spec in C1, C2, C3. destruct C1 as [-> N1], C2 as [-> N2], C3 as [-> N3].
    destruct (parse_int64 a) as [st|e|] eqn:P1; try discriminate.
    destruct (cut " " s3) as [[b s4]|] eqn:C4.
    + apply cut_spec in C4. destruct C4 as [-> N4]. destruct (parse_int64 b) as [n|e|] eqn:P2; try discriminate.
      apply signed_int in P1, P2. destruct P1, P2. destruct s4 as [|c s4].
      * intros [= <-]. exists t, p, a, b, (B " "). cbn [g_type g_path g_start g_bytes g_comp]. split; [reflexivity|].
        repeat split; try assumption; try apply unescape_denotes; try apply H0; try apply H2. left. auto.
      * destruct (bytes_eqb (c :: s4) (B "ZL1")) eqn:Z; [|discriminate]. apply bytes_eqb_true in Z. rewrite Z. intros [= <-].
        exists t, p, a, b, (B " ZL1"). cbn [g_type g_path g_start g_bytes g_comp]. split; [reflexivity|].
        repeat split; try assumption; try apply unescape_denotes; try apply H0; try apply H2. right. auto.
    + apply cut_none in C4. destruct (parse_int64 s3) as [n|e|] eqn:P2; try discriminate. apply signed_int in P1, P2. destruct P1, P2.
      intros [= <-]. exists t, p, a, s3, []. cbn [g_type g_path g_start g_bytes g_comp]. split; [now rewrite app_nil_r|].
      repeat split; try assumption; try apply unescape_denotes; try apply H0; try apply H2. left. auto.
  - intros (t & p & a & b & tail & -> & N1 & N2 & N3 & N4 & D1 & D2 & S1 & I1 & S2 & I2 & K). cbn [app]. change (B " ") with [" "%byte]. cbn [app].
    rewrite (cut_app _ _ _ N1), (cut_app _ _ _ N2), (cut_app _ _ _ N3).
    assert (P1 := proj1 (signed_int _ _) (conj S1 I1)). assert (P2 := proj1 (signed_int _ _) (conj S2 I2)). rewrite P1.
    apply unescape_iff in D1, D2. destruct g as [gt gp gs gb gc]. cbn [g_type g_path g_start g_bytes g_comp] in *.
    destruct K as [[-> [->| ->]]|[-> ->]].
    + rewrite app_nil_r. apply cut_none in N4. rewrite N4, P2, O, D1, D2. reflexivity.
    + change (B " ") with [" "%byte]. rewrite (cut_app _ _ _ N4), P2, O, D1, D2. reflexivity.
    + change (B " ZL1") with (" "%byte :: B "ZL1"). rewrite (cut_app _ _ _ N4), P2, D1, D2. reflexivity.
Qed.

(** ** Announced features *)
Lemma entries_in m : distinct m -> forall k b, In (k, b) m <-> fm_get k m = Some b.
Proof. intros D k b. change (In (k, b) m) with (entry m k (Some b)). now apply entry_get. Qed.

Lemma announced_entries add rm m : distinct m ->
  (forall k, fm_get k m = if existsb (bytes_eqb k) add then Some true else if existsb (bytes_eqb k) rm then Some false else None) ->
  forall k b, In (k, b) m <-> (b = true /\ In k add) \/ (b = false /\ In k rm /\ ~ In k add).
Proof.
  intros D G k b. rewrite (entries_in m D), G.
  assert (X : forall l, existsb (bytes_eqb k) l = true <-> In k l).
  { intros l. rewrite existsb_exists. split; [intros (x & I & E); apply bytes_eqb_true in E; now subst|intros I; exists k; split; [assumption|apply bytes_eqb_refl]]. }
  destruct (existsb (bytes_eqb k) add) eqn:A.
  - apply X in A. split; [intros [= <-]; auto|]. intros [[-> _]|(_ & _ & N)]; [reflexivity|contradiction].
  - assert (NA : ~ In k add) by (intros I; apply X in I; congruence). destruct (existsb (bytes_eqb k) rm) eqn:R.
    + apply X in R. split; [intros [= <-]; auto|]. intros [[_ I]|(-> & _)]; [contradiction|reflexivity].
    + assert (NR : ~ In k rm) by (intros I; apply X in I; congruence). split; [discriminate|]. intros [[_ I]|(_ & I & _)]; contradiction.
Qed.

Lemma sup_iff pf s ws m : separated s ws ->
  ((exists m', modfeatures_unmarshal pf s [] = Ok m' /\ distinct m /\ distinct m' /\ forall k b, In (k, b) m <-> In (k, b) m') <-> features_read ws m).
Proof.
  intros W. unfold features_read. split.
  - intros (m' & H & D & D' & S).
    assert (F : Forall (fun f => length f = 4) (map unescape (values (B "AD") ws) ++ map unescape (values (B "RM") ws))).
    { unfold modfeatures_unmarshal in H. rewrite (mod_fields_decoded pf s ws W) in H. cbn [bind] in H. apply bind_ok in H. destruct H as (m1 & H1 & H2).
      apply mod_loop_err in H1, H2. now apply Forall_app. }
    exists (map unescape (values (B "AD") ws)), (map unescape (values (B "RM") ws)).
    split; [now apply unescapes|]. split; [now apply unescapes|]. split; [exact F|]. split; [exact D|].
    destruct (modfeatures_entries pf s ws [] W F) as (m2 & E & _ & G). rewrite H in E. injection E as <-.
    intros k b. rewrite S. revert k b. now apply announced_entries.
  - intros (add & rm & A & R & F & D & S). apply unescapes in A, R. subst add rm.
    destruct (modfeatures_entries pf s ws [] W F) as (m2 & E & D2 & G). exists m2. split; [exact E|]. split; [exact D|].
    specialize (D2 (NoDup_nil _)). split; [exact D2|]. intros k b. rewrite S. symmetry. now apply announced_entries.
Qed.

(** ** Messages *)
Lemma layout_ok t : fields_of t = layout t.
Proof. destruct t; reflexivity. Qed.

Lemma registered_struct n t : In (n, t) codes -> registered (B n) = Some (new_struct t).
Proof. cbn [codes In]. intros H. repeat (destruct H as [[= <- <-]|H]; [reflexivity|]). destruct H. Qed.

Lemma registered_none n : (forall t, ~ In (n, t) (map (fun c => (B (fst c), snd c)) codes)) -> ~ In n (map B other_codes) -> registered n = None.
Proof.
  intros A O. destruct (registered n) as [m|] eqn:R; [|reflexivity]. exfalso. unfold registered in R. apply find_some in R. destruct R as [I E].
  apply bytes_eqb_true in E. subst n. cbn [registry In] in I.
  repeat (destruct I as [<-|I]; [solve [eapply A; cbn [codes map fst snd new_struct cmd In]; intuition eauto|apply O; cbn [other_codes map cmd In]; tauto]|]). destruct I.
Qed.

Lemma same_refl m : (forall f, m <> ASup f) -> forall m', same_message m m' <-> m = m'.
Proof. intros N m'. destruct m as [| f | | | | | | | | | ], m'; cbn [same_message]; try tauto; try (now destruct (N f)); split; try tauto; intros H; discriminate. Qed.

Lemma message_iff pf name s m :
  (exists m', unmarshal_message pf name s = Ok m' /\ same_message m m') <-> message_read pf name s m.
Proof.
  split.
  - intros (m' & H & Q). unfold unmarshal_message in H. destruct (registered name) as [m0|] eqn:R.
    + unfold registered in R. apply find_some in R. destruct R as [I E]. apply bytes_eqb_true in E. subst name. cbn [registry In] in I.
      assert (ST : forall t n, In (n, t) codes -> m0 = new_struct t -> cmd m0 = B n -> message_read pf (cmd m0) s m).
      { intros t n C -> Ec. cbn [unmarshal new_struct] in H. apply bind_ok in H. destruct H as (v & H & [= <-]). rewrite Ec.
        assert (m = AStruct t v) as -> by (destruct m; cbn [same_message] in Q; congruence || contradiction).
        apply (mr_struct pf n t s (split_byte " " s)); [exact C|apply split_separated|].
        revert H. apply struct_iff; [apply split_separated|apply zeros_sized]. }
      repeat (destruct I as [<-|I]; [first [solve [eapply ST; [|reflexivity|reflexivity]; cbn [codes In]; tauto]|clear ST]|]); try (destruct I).
      all: cbn [unmarshal] in H; try (apply bind_ok in H; destruct H as (v & H & [= <-])); try (injection H as <-).
      all: cbn [cmd].
      * destruct m as [|f| | | | | | | | |]; cbn [same_message] in Q; try contradiction. destruct Q as (D & D' & S).
        apply (mr_sup pf s (split_byte " " s)); [apply split_separated|]. apply (sup_iff pf s _ f (split_separated s)). exists v. auto.
      * assert (m = ASta v) as -> by (destruct m; cbn [same_message] in Q; congruence || contradiction). constructor. now apply status_decoded.
      * assert (m = AZon) as -> by (destruct m; cbn [same_message] in Q; congruence || contradiction). constructor.
      * assert (m = AZof) as -> by (destruct m; cbn [same_message] in Q; congruence || contradiction). constructor.
      * assert (m = AGet v) as -> by (destruct m; cbn [same_message] in Q; congruence || contradiction). constructor. now apply (get_iff s v new_get eq_refl).
      * assert (m = ASnd v) as -> by (destruct m; cbn [same_message] in Q; congruence || contradiction). constructor. now apply (get_iff s v new_get eq_refl).
      * assert (m = ASid v) as -> by (destruct m; cbn [same_message] in Q; congruence || contradiction).
        unfold sid_unmarshal in H. destruct (length s =? 4)%nat eqn:L; [|discriminate]. injection H as <-. constructor. now apply Nat.eqb_eq.
      * assert (m = AGpa v) as -> by (destruct m; cbn [same_message] in Q; congruence || contradiction). constructor. now apply salt_iff.
    + cbn [unmarshal] in H. injection H as <-. assert (m = ARaw name s) as -> by (destruct m; cbn [same_message] in Q; congruence || contradiction).
      constructor.
      * intros t I. apply in_map_iff in I. destruct I as ([n t'] & [= <- <-] & I). apply registered_struct in I. cbn [fst] in R. congruence.
      * intros I. cbn [other_codes map In] in I. repeat (destruct I as [<-|I]; [discriminate R|]). destruct I.
  - intros H. destruct H as [n t s ws v C W F|s ws m W F|s st F|s|s|s g F|s g F|s L|s salt F|n s A O]; unfold unmarshal_message.
    + rewrite (registered_struct n t C). exists (AStruct t v). split; [|now apply same_refl]. cbn [unmarshal new_struct].
      apply (struct_iff pf t s ws _ v W (zeros_sized _)) in F. now rewrite F.
    + change (registered (B "SUP")) with (Some (ASup [])). apply (sup_iff pf s ws m W) in F. destruct F as (m' & E & S). exists (ASup m'). cbn [unmarshal]. rewrite E. split; [reflexivity|exact S].
    + change (registered (B "STA")) with (Some (ASta new_status)). apply status_decoded in F. exists (ASta st). cbn [unmarshal]. rewrite F. now split.
    + exists AZon. split; reflexivity.
    + exists AZof. split; reflexivity.
    + change (registered (B "GET")) with (Some (AGet new_get)). apply (get_iff s g new_get eq_refl) in F. exists (AGet g). cbn [unmarshal]. rewrite F. now split.
    + change (registered (B "SND")) with (Some (ASnd new_get)). apply (get_iff s g new_get eq_refl) in F. exists (ASnd g). cbn [unmarshal]. rewrite F. now split.
    + change (registered (B "SID")) with (Some (ASid (repeat x00 4))). exists (ASid s). cbn [unmarshal]. unfold sid_unmarshal. apply Nat.eqb_eq in L. rewrite L. now split.
    + change (registered (B "GPA")) with (Some (AGpa [])). apply salt_iff in F. exists (AGpa salt). cbn [unmarshal]. rewrite F. now split.
    + rewrite (registered_none n A O). exists (ARaw n s). now split.
Qed.
