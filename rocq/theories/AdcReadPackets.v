(** Decoding ADC packets and crashes of the decoder are what the specification says. *)
From Verif Require Import Base BaseFacts Num NumFacts NumSpec SpecText Base32 Base32Facts Tiger SpecHash TigerFacts.
From Verif Require Import AdcText SpecAdc AdcTextFacts AdcValue AdcValueFacts AdcMessage AdcPacket SpecAdcMessage AdcMessageFacts AdcCustomFacts AdcPacketFacts.
From Verif Require Import SpecAdcRead AdcReadFacts.

(** ** Crashes *)
Section Decode.
Variable pf : bytes -> float_result.

Lemma overlong_not_read x h : overlong x -> ~ hash_text_read x h.
Proof.
  intros O H. assert (P := proj2 (unmarshal_panics (repeat x00 24) x eq_refl) O).
  apply (hash_text_ok' (repeat x00 24) x h eq_refl) in H. destruct (hash_unmarshal_base32 (repeat x00 24) x) as [r h']. cbn [fst] in P. subst r. discriminate.
Qed.

Lemma value_crash_iff k x old : simple k = true -> sized k old -> (unmarshal_value pf k x old = Panic <-> value_crash k x).
Proof.
  intros S Z. split; [now apply value_panic|]. intros [K O]. assert (P := proj2 (unmarshal_panics (repeat x00 24) x eq_refl) O).
  assert (N : x <> []). { intros ->. destruct O as (t & r & vs & E & L & _). cbn in E. destruct t; discriminate. }
  destruct K as [-> | ->]; cbn [unmarshal_value val zero sized] in *.
  - assert (Q := proj2 (unmarshal_panics old x Z) O). destruct (hash_unmarshal_base32 old x) as [r h]. cbn [fst] in Q. now subst r.
  - destruct x; [congruence|]. change (repeat x00 hash_size) with (repeat x00 24). destruct (hash_unmarshal_base32 _ _) as [r h]. cbn [fst] in P. now subst r.
Qed.

Lemma named_crash_iff k vs old : simple k = true -> sized k old -> (unmarshal_tagged pf k vs old = Panic <-> named_crash k vs).
Proof.
  intros S Z. unfold unmarshal_tagged, named_crash. destruct vs as [|x more].
  { split; [discriminate|]. intros (y & m & E & _). discriminate. }
  assert (V := value_crash_iff k x old S Z).
  assert (K : forall P, (P <-> value_crash k x /\ (k = KPtr KTth -> more = [])) -> (P <-> exists y m, x :: more = y :: m /\ value_crash k y /\ (k = KPtr KTth -> m = []))).
  { intros P ->. split; [intros [A B']; exists x, more; auto|]. intros (y & m & [= <- <-] & A & B'). auto. }
  apply K. clear K. destruct (unmarshaler k) eqn:U.
  - rewrite V. split; [|tauto]. intros A. split; [exact A|]. intros ->. discriminate.
  - assert (G : match more with [] => unmarshal_value pf k x old | _ => Err (EText "expected single value") end = Panic <-> value_crash k x /\ (k = KPtr KTth -> more = [])).
    { destruct more as [|y more]; [rewrite V; tauto|]. split; [discriminate|]. intros [[[->| ->] _] B']; [discriminate|]. now specialize (B' eq_refl). }
    destruct k; try exact G. split; [discriminate|]. intros [[[A|A] _] _]; discriminate.
Qed.

Lemma fields_crash_iff fs : forall ws old, forallb short_tag fs = true -> forallb (fun f => simple (f_kind f)) fs = true -> sized_all fs old ->
  (unmarshal_fields pf fs ws old = Panic <-> fields_crash pf fs ws old).
Proof.
  induction fs as [|f r IH]; intros ws old T S Z; cbn [unmarshal_fields fields_crash vals] in *; [split; [discriminate|intros []]|].
  cbn [forallb] in T, S. apply andb_true_iff in T as [T T']. apply andb_true_iff in S as [S S']. destruct Z as [Z Z']. destruct old as [o old]. cbn [fst snd] in *.
  unfold positional. unfold short_tag in T. destruct (bytes_eqb (f_tag f) (B "#")) eqn:P.
  - apply bytes_eqb_true in P. destruct ws as [|w ws]; [split; auto|]. split.
    + intros H. left. split; [assumption|]. right. exists w, ws. split; [reflexivity|]. apply bind_panic in H. destruct H as [H|(x & H & G)].
      * left. revert H. now apply value_crash_iff.
      * right. apply bind_panic in G. destruct G as [G|(l & _ & G)]; [|discriminate]. split; [exists x; revert H; now apply value_iff|now apply IH].
    + intros [(_ & [E|(w' & ws' & [= <- <-] & H)])|(N & _)]; [discriminate| |contradiction]. destruct H as [H|[[x H] G]].
      * apply (value_crash_iff _ _ o) in H; try assumption. now rewrite H.
      * apply value_iff in H; [|assumption]. apply IH in G; try assumption. now rewrite H, G.
  - apply bytes_eqb_false in P. cbn [orb] in T. apply Nat.eqb_eq in T. rewrite values_tagged by assumption. split.
    + intros H. right. split; [assumption|]. apply bind_panic in H. destruct H as [H|(x & H & G)].
      * left. revert H. now apply named_crash_iff.
      * right. apply bind_panic in G. destruct G as [G|(l & _ & G)]; [|discriminate]. split; [exists x; revert H; now apply named_iff|now apply IH].
    + intros [(N & _)|(_ & [H|[[x H] G]])]; [contradiction| |].
      * apply (named_crash_iff _ _ o) in H; try assumption. now rewrite H.
      * apply named_iff in H; [|assumption]. apply IH in G; try assumption. now rewrite H, G.
Qed.

Lemma struct_crash_iff t s ws old : separated s ws -> sized_all (fields_of t) old ->
  (unmarshal pf s (AStruct t old) = Panic <-> fields_crash pf (fields_of t) ws old).
Proof.
  intros W Z. rewrite <- (fields_crash_iff (fields_of t) ws old); [|destruct t; vm_compute; reflexivity..|exact Z].
  cbn [unmarshal]. unfold unmarshal_struct. rewrite (separated_split _ _ W). split.
  - intros H. apply bind_panic in H. destruct H as [H|(v & _ & H)]; [exact H|discriminate].
  - intros ->. reflexivity.
Qed.

Lemma message_crash_iff name s : unmarshal_message pf name s = Panic <-> message_crash pf name s.
Proof.
  unfold message_crash. split.
  - intros H. unfold unmarshal_message in H. destruct (registered name) as [m|] eqn:R; [|discriminate].
    unfold registered in R. apply find_some in R. destruct R as [I E]. apply bytes_eqb_true in E. subst name. cbn [registry In] in I.
    assert (ST : forall t n, In (n, t) codes -> m = new_struct t -> cmd m = B n ->
      exists n t ws, cmd m = B n /\ In (n, t) codes /\ separated s ws /\ fields_crash pf (fields_of t) ws (zeros (fields_of t))).
    { intros t n C -> Ec. exists n, t, (split_byte " " s). split; [exact Ec|]. split; [exact C|]. split; [apply split_separated|].
      apply (struct_crash_iff t s _ _ (split_separated s) (zeros_sized _)). exact H. }
    repeat (destruct I as [<-|I]; [first [solve [eapply ST; [|reflexivity|reflexivity]; cbn [codes In]; tauto]|clear ST]|]); try (destruct I).
    all: exfalso; cbn [unmarshal] in H; try discriminate; apply bind_panic in H; (destruct H as [H|(x & _ & H)]; [|discriminate]).
    + now apply modfeatures_total in H.
    + now apply status_total in H.
    + now apply get_total in H.
    + now apply get_total in H.
    + unfold sid_unmarshal in H. destruct (_ =? _)%nat; discriminate.
    + now apply gpa_total in H.
  - intros (n & t & ws & -> & C & W & F). unfold unmarshal_message. rewrite (registered_struct n t C).
    now apply (struct_crash_iff t s ws _ W (zeros_sized _)).
Qed.
End Decode.

(** ** Packets *)
Lemma headed_iff l data id d : 0 < l ->
  (id_checks l data = Ok tt /\ firstn l data = id /\ after_id l data = d <-> headed l data id d).
Proof.
  intros L0. rewrite id_checks_iff. split.
  - intros ((L & E & C) & <- & <-). destruct (Nat.eq_dec (length data) l) as [Q|Q].
    + apply ends_line_iff in E. destruct E as [q ->]. rewrite app_length in Q. cbn in Q. rewrite firstn_all2 by (rewrite app_length; cbn; lia).
      unfold after_id. rewrite removelast_snoc, skipn_all2 by lia. now constructor.
    + specialize (C ltac:(lia)). destruct (id_split l data ltac:(lia) E) as (x & X & Y). assert (F : length (firstn l data) = l) by (apply firstn_length_le; lia).
      revert X F. generalize (firstn l data) as id. intros id X F. destruct Y as [[-> Y]|(y & ->)].
      * rewrite Y in X. rewrite X. change [x0a] with ([] ++ [x0a]). rewrite after_id_ok by assumption. now apply hd_bare.
      * rewrite X at 1 2. rewrite app_comm_cons, after_id_ok by assumption. cbn [tl app]. now apply hd_more.
  - intros H. destruct H as [a A|id I|id c d I C].
    + assert (LA : length (a ++ [x0a]) = l) by (rewrite app_length; cbn; lia). split; [split; [lia|]; split; [apply ends_line_snoc|lia]|].
      split; [apply firstn_all2; lia|]. unfold after_id. rewrite removelast_snoc. apply skipn_all2. lia.
    + split; [split; [rewrite app_length; cbn; lia|]; split; [apply ends_line_snoc|]|].
      * intros _. right. unfold at_. rewrite app_nth2 by lia. now rewrite I, Nat.sub_diag.
      * split; [rewrite firstn_app, firstn_all2 by lia; replace (l - length id) with 0 by lia; apply app_nil_r|].
        change [x0a] with ([] ++ [x0a]). now rewrite after_id_ok.
    + split; [split; [rewrite app_length; cbn; lia|]; split; [rewrite app_comm_cons, app_assoc; apply ends_line_snoc|]|].
      * intros _. unfold at_. rewrite app_nth2 by lia. now rewrite I, Nat.sub_diag.
      * split; [rewrite firstn_app, firstn_all2 by lia; replace (l - length id) with 0 by lia; apply app_nil_r|].
        rewrite app_comm_cons, after_id_ok by assumption. reflexivity.
Qed.
Lemma headed_ends l data id d : headed l data id d -> ends_line data = true.
Proof. intros []; [apply ends_line_snoc..|]. rewrite app_comm_cons, app_assoc. apply ends_line_snoc. Qed.
Lemma headed_length l data id d : headed l data id d -> length id = l /\ length d <= length data.
Proof. intros []; rewrite ?app_length; cbn [length]; rewrite ?app_length; cbn [length]; lia. Qed.

Lemma plus_minus c : (beq c "+" || beq c "-")%bool = false -> c <> "+"%byte /\ c <> "-"%byte.
Proof. intros H. apply orb_false_iff in H. now rewrite !beq_false in H. Qed.

Lemma selection_iff sp : forall fuel x acc sel d, length x < fuel ->
  (sel_loop fuel sp x acc = Ok (sel, d) <-> exists s, sel = acc ++ s /\ selection x s d).
Proof.
  induction fuel as [|fuel IH]; intros x acc sel d L; [lia|]. cbn [sel_loop]. destruct x as [|c t].
  - split; [intros [= <- <-]; exists []; split; [now rewrite app_nil_r|constructor]|]. intros (s & -> & S). inversion S; subst. now rewrite app_nil_r.
  - destruct (beq c "+" || beq c "-")%bool eqn:P.
    + assert (C : c = "+"%byte \/ c = "-"%byte) by (apply orb_true_iff in P; rewrite !beq_true in P; exact P).
      destruct (Nat.ltb_spec (length (c :: t)) 5) as [Q|Q].
      * split; [destruct (_ <? _)%nat; discriminate|]. intros (s & -> & S). exfalso.
        inversion S as [|c' d' St|x s' d' S'|f x s' d' F S'|f x s' d' F S']; subst.
        -- destruct St as (A & B' & _). destruct C; contradiction.
        -- destruct C; discriminate.
        -- cbn in Q. rewrite app_length in Q. lia.
        -- cbn in Q. rewrite app_length in Q. lia.
      * change (skipn 5 (c :: t)) with (skipn 4 t). rewrite IH by (rewrite skipn_length; cbn in L; lia).
        assert (F4 : length (firstn 4 t) = 4) by (apply firstn_length_le; cbn in Q; lia). split.
        -- intros (s & -> & S). exists ((firstn 4 t, beq c "+") :: s). split; [now rewrite <- app_assoc|].
           rewrite <- (firstn_skipn 4 t) at 1. destruct C as [-> | ->]; [now apply se_with|now apply se_without].
        -- intros (s & -> & S). inversion S as [|c' d' St|x s' d' S'|f x s' d' F S'|f x s' d' F S']; subst.
           ++ destruct St as (A & B' & _). destruct C; contradiction.
           ++ destruct C; discriminate.
           ++ exists s'. rewrite skipn_app, skipn_all2, firstn_app, firstn_all2, F by lia. cbn [Nat.sub skipn firstn app]. rewrite app_nil_r. now rewrite <- app_assoc.
           ++ exists s'. rewrite skipn_app, skipn_all2, firstn_app, firstn_all2, F by lia. cbn [Nat.sub skipn firstn app]. rewrite app_nil_r. now rewrite <- app_assoc.
    + apply plus_minus in P. destruct P as [P1 P2]. destruct (beq c " ") eqn:W.
      * apply beq_true in W. subst c. rewrite IH by (cbn in L; lia). split.
        -- intros (s & -> & S). exists s. split; [reflexivity|now constructor].
        -- intros (s & -> & S). exists s. split; [reflexivity|]. inversion S as [|c' d' St| | |]; subst; [|assumption]. destruct St as (_ & _ & W). congruence.
      * apply beq_false in W. split.
        -- intros [= <- <-]. exists []. split; [now rewrite app_nil_r|]. now repeat constructor.
        -- intros (s & -> & S). inversion S; subst; try congruence. now rewrite app_nil_r.
Qed.

Lemma sid_iff s id : sid_unmarshal s = Ok id <-> s = id /\ length id = 4.
Proof.
  unfold sid_unmarshal. destruct (length s =? 4)%nat eqn:E.
  - apply Nat.eqb_eq in E. split; [intros [= <-]; auto|now intros [-> _]].
  - apply Nat.eqb_neq in E. split; [discriminate|now intros [-> L]].
Qed.

Lemma direct_iff mk name data p :
  (direct_unmarshal mk name data = Ok p <-> exists ids id to d, headed 9 data ids d /\ ids = id ++ " "%byte :: to /\ length id = 4 /\ p = mk id to (ARaw name d)).
Proof.
  assert (ID : id_checks 9 data = if (length data <? 9)%nat then Err (EText "short command")
    else if negb (ends_line data) then Err (EText "invalid packet delimiter")
    else if ((9 <? length data)%nat && negb (beq (at_ data 9) " ") && negb (beq (at_ data 9) x0a))%bool then Err (EText "separator expected") else Ok tt) by reflexivity.
  unfold direct_unmarshal. split.
  - destruct (length data <? 9)%nat eqn:L; [discriminate|]. destruct (ends_line data) eqn:E; [|discriminate]. cbn [negb] in *.
    destruct (beq (at_ data 4) " ") eqn:S; [|discriminate]. cbn [negb]. destruct (_ && _ && _)%bool; [discriminate|].
    intros H. apply bind_ok in H. destruct H as (id & I & H). apply bind_ok in H. destruct H as (to & T & [= <-]).
    apply sid_iff in I, T. destruct I as [I LI], T as [T LT]. apply Nat.ltb_ge in L. apply beq_true in S.
    assert (X : firstn 9 data = id ++ " "%byte :: to).
    { subst id to. rewrite <- S. clear -L. do 9 (destruct data as [|? data]; [cbn in L; lia|]). reflexivity. }
    exists (firstn 9 data), id, to, (after_id 9 data). split; [apply headed_iff; [lia|auto]|]. auto.
  - intros (ids & id & to & d & H & -> & L & ->). assert (Hl := proj1 (headed_length _ _ _ _ H)). apply headed_iff in H; [|lia]. destruct H as (C & F & A).
    rewrite ID in C. destruct (length data <? 9)%nat eqn:L9; [discriminate|]. destruct (ends_line data) eqn:E; [|discriminate]. cbn [negb] in *.
    destruct (_ && _ && _)%bool; [discriminate|]. apply Nat.ltb_ge in L9. rewrite app_length in Hl. cbn in Hl.
    assert (X : firstn 4 data = id /\ at_ data 4 = " "%byte /\ firstn 4 (skipn 5 data) = to).
    { destruct id as [|i1 [|i2 [|i3 [|i4 [|]]]]]; try discriminate. destruct to as [|t1 [|t2 [|t3 [|t4 [|]]]]]; try discriminate.
      do 9 (destruct data as [|? data]; [cbn in L9; lia|]). cbn in F. injection F as -> -> -> -> -> -> -> -> ->. repeat split. }
    destruct X as (X1 & X2 & X3). rewrite X1, X2, X3, A. change (beq " " " ") with true. cbn [negb].
    assert (S1 : sid_unmarshal id = Ok id) by (now apply sid_iff). assert (S2 : sid_unmarshal to = Ok to) by (apply sid_iff; split; [reflexivity|lia]). now rewrite S1, S2.
Qed.

Lemma last_line d : ends_line d = true -> exists q, d = q ++ [x0a] /\ removelast d = q /\ d <> [].
Proof. intros E. apply ends_line_iff in E. destruct E as [q ->]. exists q. split; [reflexivity|]. split; [apply removelast_snoc|]. destruct q; discriminate. Qed.

Lemma packet_data_iff sp k name data p : ends_line data = true ->
  (unmarshal_packet sp k name data = Ok p <-> packet_data name k data p).
Proof.
  intros E. unfold unmarshal_packet.
  assert (PL : forall mk, plain_unmarshal mk name data = Ok p <-> exists d, data = d ++ [x0a] /\ p = mk (ARaw name d)).
  { intros mk. destruct (last_line data E) as (q & Q & R & N). unfold plain_unmarshal. rewrite E, R. destruct data; [congruence|]. rewrite Q. split.
    - intros [= <-]. eauto.
    - intros (d & D & ->). apply app_inj_tail in D. destruct D as [-> _]. reflexivity. }
  assert (IP : info_unmarshal name data = plain_unmarshal PInfo name data).
  { destruct data; [discriminate|reflexivity]. }
  destruct (beq k "I") eqn:KI.
  { apply beq_true in KI. subst k. rewrite IP, PL. split; [intros (d & -> & ->); constructor|]. inversion 1; subst. eauto. }
  destruct (beq k "H") eqn:KH.
  { apply beq_true in KH. subst k. rewrite PL. split; [intros (d & -> & ->); constructor|]. inversion 1; subst. eauto. }
  destruct (beq k "E") eqn:KE.
  { apply beq_true in KE. subst k. rewrite direct_iff. split.
    - intros (ids & id & to & d & A & B' & C & ->). now apply (pd_echo _ _ ids).
    - inversion 1; subst. eauto 10. }
  destruct (beq k "D") eqn:KD.
  { apply beq_true in KD. subst k. rewrite direct_iff. split.
    - intros (ids & id & to & d & A & B' & C & ->). now apply (pd_direct _ _ ids).
    - inversion 1; subst. eauto 10. }
  destruct (beq k "B") eqn:KB.
  { apply beq_true in KB. subst k. unfold broadcast_unmarshal. split.
    - intros H. apply bind_ok in H. destruct H as ([] & C & H). apply bind_ok in H. destruct H as (id & I & [= <-]). apply sid_iff in I. destruct I as [I L].
      constructor. apply headed_iff; [lia|auto].
    - inversion 1 as [| | |? id d A| | | |]; subst. assert (L := proj1 (headed_length _ _ _ _ A)). apply headed_iff in A; [|lia]. destruct A as (C & F & G).
      rewrite C. cbn [bind]. rewrite F, G. assert (S1 : sid_unmarshal id = Ok id) by (now apply sid_iff). now rewrite S1. }
  destruct (beq k "F") eqn:KF.
  { apply beq_true in KF. subst k. unfold feature_packet_unmarshal. split.
    - intros H. apply bind_ok in H. destruct H as ([] & C & H). apply bind_ok in H. destruct H as (id & I & H). apply sid_iff in I. destruct I as [I L].
      apply bind_ok in H. destruct H as ([sel d] & S & [= <-]). assert (A : headed 4 data id (after_id 4 data)) by (apply headed_iff; [lia|auto]).
      apply selection_iff in S; [|apply headed_length in A; lia]. destruct S as (s & -> & S). cbn [app]. now apply (pd_feature _ _ _ (after_id 4 data)).
    - inversion 1 as [| | | | | |? id x sel d A S|]; subst. assert (L := headed_length _ _ _ _ A). destruct L as [L L']. apply headed_iff in A; [|lia]. destruct A as (C & F & G).
      rewrite C. cbn [bind]. rewrite F, G. assert (S1 : sid_unmarshal id = Ok id) by (now apply sid_iff). rewrite S1. cbn [bind].
      assert (Q : sel_loop (Datatypes.S (length data)) (Datatypes.S sp) x [] = Ok (sel, d)) by (apply selection_iff; [lia|exists sel; split; [reflexivity|exact S]]). now rewrite Q. }
  destruct (beq k "C") eqn:KC.
  { apply beq_true in KC. subst k. rewrite PL. split; [intros (d & -> & ->); constructor|]. inversion 1; subst. eauto. }
  destruct (beq k "U") eqn:KU.
  { apply beq_true in KU. subst k. unfold udp_unmarshal. split.
    - intros H. apply bind_ok in H. destruct H as ([] & C & H). apply bind_ok in H. destruct H as (id & I & [= <-]). apply cid_text_ok in I.
      apply (pd_udp _ _ (firstn 39 data)); [apply headed_iff; [lia|auto]|exact I].
    - inversion 1 as [| | | | | | |? t id d A T]; subst. apply headed_iff in A; [|lia]. destruct A as (C & F & G). rewrite C. cbn [bind]. rewrite F, G.
      apply (cid_text_ok (repeat x00 hash_size)) in T. now rewrite T. }
  split; [discriminate|]. rewrite !beq_false in *. inversion 1; congruence.
Qed.

Lemma packet_iff sp l p : decode_packet_raw sp l = Ok p <-> packet_read l p.
Proof.
  unfold packet_read. split.
  - intros H. destruct (decode_inv sp l) as (k & name & data & F & K & N & E & G); [intros e; congruence|]. rewrite H in G. symmetry in G.
    exists k, name, data. split; [exact F|]. split; [exact N|]. revert G. now apply packet_data_iff.
  - intros (k & name & data & F & N & D). assert (E : ends_line data = true).
    { destruct D; try apply ends_line_snoc; eapply headed_ends; eassumption. }
    rewrite (decode_framed sp k name data l F); [now apply packet_data_iff|destruct D; reflexivity|exact N|exact E].
Qed.

(** ** Together *)
Lemma array_sized fs : forall v, array_sizes fs v -> sized_all fs v.
Proof.
  induction fs as [|f r IH]; intros v; cbn [array_sizes sized_all vals]; [trivial|]. destruct v as [x v]. cbn [fst snd]. intros [A R]. split; [|now apply IH].
  destruct (f_kind f); cbn [array_size sized] in *; tauto.
Qed.
Lemma zeros_sizes fs : array_sizes fs (zeros fs).
Proof. induction fs as [|f r IH]; cbn [array_sizes zeros fst snd]; [trivial|]. split; [|assumption]. now destruct (f_kind f). Qed.

Lemma struct_value t (v w : vals (fields_of t)) : AStruct t v = AStruct t w -> v = w.
Proof. intros E. injection E as E. apply (Eqdep_dec.inj_pair2_eq_dec stype) in E; [assumption|]. decide equality. Qed.

Lemma struct_read pf t s ws old v : separated s ws -> array_sizes (fields_of t) old ->
  (unmarshal pf s (AStruct t old) = Ok (AStruct t v) <-> fields_read pf (fields_of t) ws old v).
Proof.
  intros W A. rewrite <- (struct_iff pf t s ws old v W (array_sized _ _ A)). cbn [unmarshal]. split.
  - intros H. apply bind_ok in H. destruct H as (v' & H & E). assert (E' : AStruct t v' = AStruct t v) by congruence. apply struct_value in E'. now subst.
  - intros ->. reflexivity.
Qed.

Lemma raw_message l q : packet_read l q -> exists name d, raw q name d.
Proof. intros (k & name & data & _ & _ & D). unfold raw. destruct D; cbn [message]; eauto. Qed.

Lemma decode_packet_iff pf sp l p :
  (exists p', decode_packet pf sp l = Ok p' /\ same_packet p p') <-> packet_message_read pf l p.
Proof.
  unfold decode_packet, packet_message_read, same_packet. split.
  - intros (p' & H & S & E). apply bind_ok in H. destruct H as (q & R & H). apply packet_iff in R. destruct (raw_message l q R) as (name & d & M).
    unfold decode_message in H. rewrite M in H. apply bind_ok in H. destruct H as (m & U & [= <-]). assert (MS : message (set_message m q) = m) by (now destruct q).
    rewrite MS in S. exists q, name, d. split; [exact R|]. split; [exact M|]. split; [apply message_iff; eauto|]. rewrite <- E. now destruct q.
  - intros (q & name & d & R & M & U & E). apply message_iff in U. destruct U as (m & U & S). exists (set_message m q).
    apply (packet_iff sp) in R. rewrite R. cbn [bind]. unfold decode_message. unfold raw in M. rewrite M, U. split; [reflexivity|].
    assert (MS : message (set_message m q) = m) by (now destruct q). rewrite MS. split; [exact S|]. rewrite <- E at 2. now destruct q.
Qed.
