(** Facts about UnmarshalPacketADC on packets in use and about packets with messages of a program. *)
From Verif Require Import Base BaseFacts Base32 Tiger LineReader LineWriter AdcText AdcValue AdcMessage AdcPacket AdcPacketFacts AdcReader AdcWriter AdcReuse
  SpecAdc SpecAdcRead SpecAdcWrite SpecAdcReuse AdcReadFacts AdcReadPackets AdcRelayFacts AdcSurviveFacts AdcWriteFacts.

(** ** Feature selectors *)
Lemma sel_into_same : forall fuel sp x acc, match sel_into fuel sp x acc with
  | (Ok d, s) => sel_loop fuel sp x acc = Ok (s, d)
  | (Err e, _) => sel_loop fuel sp x acc = Err e
  | (Panic, _) => sel_loop fuel sp x acc = Panic
  end.
Proof.
  induction fuel as [|f IH]; intros sp x acc; cbn [sel_into sel_loop]; [reflexivity|]. destruct x as [|c t]; [reflexivity|].
  destruct (beq c "+" || beq c "-")%bool; [destruct (_ <? 5)%nat; [destruct (_ <? 5)%nat; reflexivity|apply IH]|]. destruct (beq c " "); [apply IH|reflexivity].
Qed.
Lemma picked_loop sp x s t : picked x s t -> cut_off t -> forall fuel acc, length x < fuel ->
  sel_into fuel sp x acc = (if (length t + sp <? 5)%nat then Panic else Err (EText "short feature"), acc ++ s).
Proof.
  intros P K. induction P as [t|x s t P IH|f x s t F P IH|f x s t F P IH]; intros fuel acc L; (destruct fuel as [|fuel]; [lia|]); cbn [sel_into].
  - destruct K as (c & f & -> & C & Q). assert (X : (beq c "+" || beq c "-")%bool = true) by (destruct C as [-> | ->]; reflexivity). rewrite X.
    assert (Y : (length (c :: f) <? 5)%nat = true) by (apply Nat.ltb_lt; cbn [length]; lia). rewrite Y. now rewrite app_nil_r.
  - change (beq " " "+" || beq " " "-")%bool with false. change (beq " " " ") with true. cbn iota. apply (IH K). cbn [length] in L. lia.
  - change (beq "+" "+" || beq "+" "-")%bool with true. cbn iota.
    assert (Y : (length ("+"%byte :: f ++ x) <? 5)%nat = false) by (apply Nat.ltb_ge; cbn [length]; rewrite app_length; lia). rewrite Y.
    cbn [length] in L. rewrite app_length in L.
    destruct f as [|f1 [|f2 [|f3 [|f4 [|]]]]]; try discriminate. cbn [app skipn firstn]. rewrite (IH K) by (cbn [length] in L; lia). now rewrite <- app_assoc.
  - change (beq "-" "+" || beq "-" "-")%bool with true. cbn iota.
    assert (Y : (length ("-"%byte :: f ++ x) <? 5)%nat = false) by (apply Nat.ltb_ge; cbn [length]; rewrite app_length; lia). rewrite Y.
    cbn [length] in L. rewrite app_length in L.
    destruct f as [|f1 [|f2 [|f3 [|f4 [|]]]]]; try discriminate. cbn [app skipn firstn]. rewrite (IH K) by (cbn [length] in L; lia). now rewrite <- app_assoc.
Qed.
Lemma loop_picked sp : forall fuel x acc r s, length x < fuel -> sel_into fuel sp x acc = (r, s) -> (forall d, r <> Ok d) ->
  exists s' t, s = acc ++ s' /\ picked x s' t /\ cut_off t.
Proof.
  induction fuel as [|fuel IH]; intros x acc r s L H N; [lia|]. cbn [sel_into] in H. destruct x as [|c t]; [injection H as <- <-; now destruct (N [])|].
  destruct (beq c "+" || beq c "-")%bool eqn:P.
  - assert (C : c = "+"%byte \/ c = "-"%byte) by (apply orb_true_iff in P; rewrite !beq_true in P; exact P).
    destruct (Nat.ltb_spec (length (c :: t)) 5) as [Q|Q].
    + injection H as <- <-. exists [], (c :: t). rewrite app_nil_r. split; [reflexivity|]. split; [constructor|]. exists c, t. split; [reflexivity|]. split; [exact C|]. cbn [length] in Q. lia.
    + change (skipn 5 (c :: t)) with (skipn 4 t) in H. cbn [length] in L, Q. apply IH in H; [|rewrite skipn_length; lia|exact N]. destruct H as (s' & t' & -> & A & K).
      exists ((firstn 4 t, beq c "+") :: s'), t'. split; [now rewrite <- app_assoc|]. split; [|exact K].
      assert (F4 : length (firstn 4 t) = 4) by (apply firstn_length_le; lia).
      rewrite <- (firstn_skipn 4 t) at 1. destruct C as [-> | ->]; [now apply pk_with|now apply pk_without].
  - destruct (beq c " ") eqn:W; [|injection H as <- <-; now destruct (N (c :: t))]. apply beq_true in W. subst c.
    cbn [length] in L. apply IH in H; [|lia|exact N]. destruct H as (s' & t' & -> & A & K). exists s', t'. split; [reflexivity|]. split; [now constructor|exact K].
Qed.

(** ** UnmarshalPacketADC *)
Lemma res_unit_dec (r : res unit) : r = Ok tt \/ r <> Ok tt.
Proof. destruct r as [[]| |]; [now left|right; discriminate..]. Qed.
Lemma sid_four (s : bytes) : length s = 4 -> sid_unmarshal s = Ok s.
Proof. intros L. unfold sid_unmarshal. now rewrite L. Qed.
Lemma checks_four l data : id_checks l data = Ok tt -> length (firstn l data) = l.
Proof. intros H. apply id_checks_iff in H. apply firstn_length_le. apply H. Qed.
Lemma checks_total l data : id_checks l data <> Panic.
Proof. unfold id_checks. destruct (_ <? _)%nat; [discriminate|]. destruct (negb _); [discriminate|]. destruct (_ && _)%bool; discriminate. Qed.

Lemma kind_unmarshal sp p name data : unmarshal_packet sp (kind_of p) name data =
  match p with
  | PInfo _ => info_unmarshal name data | PHub _ => plain_unmarshal PHub name data | PClient _ => plain_unmarshal PClient name data
  | PBroadcast _ _ => broadcast_unmarshal name data | PDirect _ _ _ => direct_unmarshal PDirect name data | PEcho _ _ _ => direct_unmarshal PEcho name data
  | PFeature _ _ _ => feature_packet_unmarshal sp name data | PUdp _ _ => udp_unmarshal name data
  end.
Proof. destruct p; reflexivity. Qed.
(** The two results of a call on a packet in use. *)
Definition agrees (r : res unit * packet) (q : res packet) : Prop :=
  match r with
  | (Ok _, p') => q = Ok p'
  | (Err _, _) => exists e, q = Err e
  | (Panic, _) => q = Panic
  end.
Lemma direct_agrees mk old old2 m name data : agrees (direct_into mk old old2 m name data) (direct_unmarshal mk name data).
Proof.
  unfold direct_into, direct_unmarshal. destruct (Nat.ltb_spec (length data) 9) as [L|L]; [cbn; eauto|]. destruct (negb (ends_line data)); [cbn; eauto|].
  destruct (negb (beq (at_ data 4) " ")); [cbn; eauto|]. destruct (_ && _ && _)%bool; [cbn; eauto|]. unfold sid_into.
  rewrite (sid_four (firstn 4 data)) by (apply firstn_length_le; lia). rewrite (sid_four (firstn 4 (skipn 5 data))) by (apply firstn_length_le; rewrite skipn_length; lia). reflexivity.
Qed.
Lemma into_packet sp p name data : agrees (unmarshal_into sp p name data) (unmarshal_packet sp (kind_of p) name data).
Proof.
  rewrite kind_unmarshal. destruct p as [m|m|id m|id to m|id to m|m|id sel m|cid m]; cbn [unmarshal_into].
  - unfold plain_into, info_unmarshal. destruct data; [reflexivity|]. destruct (ends_line _); cbn; eauto.
  - unfold plain_into, plain_unmarshal. destruct data; [cbn; eauto|]. destruct (ends_line _); cbn; eauto.
  - unfold broadcast_into, broadcast_unmarshal. destruct (id_checks 4 data) as [[]|e|] eqn:C; [|cbn; eauto|cbn; reflexivity].
    cbn [bind]. unfold sid_into. rewrite (sid_four (firstn 4 data)) by now apply checks_four. reflexivity.
  - apply direct_agrees.
  - apply direct_agrees.
  - unfold plain_into, plain_unmarshal. destruct data; [cbn; eauto|]. destruct (ends_line _); cbn; eauto.
  - unfold feature_into, feature_packet_unmarshal. destruct (id_checks 4 data) as [[]|e|] eqn:C; [|cbn; eauto|cbn; reflexivity].
    cbn [bind]. unfold sid_into. rewrite (sid_four (firstn 4 data)) by now apply checks_four. cbn [bind].
    pose proof (sel_into_same (S (length data)) (S sp) (after_id 4 data) []) as X. destruct (sel_into _ _ _ _) as [[d|e|] s]; rewrite X; cbn; eauto.
  - unfold udp_into, udp_unmarshal. destruct (id_checks 39 data) as [[]|e|] eqn:C; [|cbn; eauto|cbn; reflexivity].
    cbn [bind]. unfold cid_from_base32. destruct (hash_from_base32 _ _) as [[[]|e|] th]; cbn; eauto.
Qed.
Lemma packet_needs_line sp p name data q : unmarshal_packet sp (kind_of p) name data = Ok q -> ends_line data = true.
Proof.
  rewrite kind_unmarshal. assert (I : forall l u, id_checks l data = Ok u -> ends_line data = true) by (intros l [] H; apply id_checks_iff in H; apply H).
  assert (D : forall mk, direct_unmarshal mk name data = Ok q -> ends_line data = true).
  { intros mk. unfold direct_unmarshal. destruct (_ <? _)%nat; [discriminate|]. now destruct (ends_line data). }
  destruct p as [m|m|id m|id to m|id to m|m|id sel m|cid m]; try (unfold info_unmarshal, plain_unmarshal; destruct data; [discriminate|]; now destruct (ends_line _)); eauto;
    intros H; apply bind_ok in H; destruct H as (u & C & _); eauto.
Qed.
Lemma into_ok sp p name data p' : unmarshal_into sp p name data = (Ok tt, p') <-> packet_data name (kind_of p) data p'.
Proof.
  pose proof (into_packet sp p name data) as A. split.
  - intros H. rewrite H in A. cbn in A. apply (packet_data_iff sp); [exact (packet_needs_line _ _ _ _ _ A)|exact A].
  - intros D. assert (E : ends_line data = true) by (destruct D; try apply ends_line_snoc; eapply headed_ends; eassumption).
    apply (packet_data_iff sp) in D; [|exact E]. destruct (unmarshal_into sp p name data) as [[[]|e|] q]; cbn in A; [congruence|destruct A as [e' A]; congruence|congruence].
Qed.

Lemma half_into sp p name data q n : half_read data p q n ->
  unmarshal_into sp p name data = (if (n + S sp <? 5)%nat then Panic else Err (EText "short feature"), q).
Proof.
  intros (old & sel & m & id & x & sel' & t & -> & -> & H & P & K & <-). cbn [unmarshal_into]. unfold feature_into.
  pose proof (headed_length _ _ _ _ H) as [L L']. apply headed_iff in H; [|lia]. destruct H as (C & F & A).
  rewrite C, F, A. unfold sid_into. rewrite (sid_four id L). rewrite (picked_loop (S sp) x sel' t P K) by lia. cbn [app].
  now destruct (_ <? 5)%nat.
Qed.
Lemma into_left sp p name data r q : unmarshal_into sp p name data = (r, q) -> r <> Ok tt -> q = p \/ exists n, half_read data p q n.
Proof.
  intros H N. destruct p as [m|m|id m|id to m|id to m|m|id sel m|cid m]; cbn [unmarshal_into] in H.
  - left. unfold plain_into in H. destruct data; [now injection H|]. destruct (ends_line _); injection H as <- <-; [now destruct N|reflexivity].
  - left. unfold plain_into in H. destruct data; [now injection H|]. destruct (ends_line _); injection H as <- <-; [now destruct N|reflexivity].
  - left. unfold broadcast_into in H. destruct (id_checks 4 data) as [[]|e|] eqn:C; [|now injection H|now injection H]. unfold sid_into in H.
    rewrite (sid_four (firstn 4 data)) in H by now apply checks_four. injection H as <- <-. now destruct N.
  - left. unfold direct_into in H. destruct (Nat.ltb_spec (length data) 9) as [L|L]; [now injection H|]. destruct (negb (ends_line data)); [now injection H|].
    destruct (negb (beq (at_ data 4) " ")); [now injection H|]. destruct (_ && _ && _)%bool; [now injection H|]. unfold sid_into in H.
    rewrite (sid_four (firstn 4 data)) in H by (apply firstn_length_le; lia). rewrite (sid_four (firstn 4 (skipn 5 data))) in H by (apply firstn_length_le; rewrite skipn_length; lia).
    injection H as <- <-. now destruct N.
  - left. unfold direct_into in H. destruct (Nat.ltb_spec (length data) 9) as [L|L]; [now injection H|]. destruct (negb (ends_line data)); [now injection H|].
    destruct (negb (beq (at_ data 4) " ")); [now injection H|]. destruct (_ && _ && _)%bool; [now injection H|]. unfold sid_into in H.
    rewrite (sid_four (firstn 4 data)) in H by (apply firstn_length_le; lia). rewrite (sid_four (firstn 4 (skipn 5 data))) in H by (apply firstn_length_le; rewrite skipn_length; lia).
    injection H as <- <-. now destruct N.
  - left. unfold plain_into in H. destruct data; [now injection H|]. destruct (ends_line _); injection H as <- <-; [now destruct N|reflexivity].
  - unfold feature_into in H. destruct (id_checks 4 data) as [[]|e|] eqn:C; [|left; now injection H|left; now injection H]. unfold sid_into in H.
    rewrite (sid_four (firstn 4 data)) in H by now apply checks_four. right.
    assert (A : headed 4 data (firstn 4 data) (after_id 4 data)) by (apply headed_iff; [lia|auto]).
    pose proof (headed_length _ _ _ _ A) as [_ L]. destruct (sel_into _ _ _ _) as [x s] eqn:X.
    assert (NX : forall d, x <> Ok d) by (intros d ->; injection H as <- <-; now destruct N).
    destruct (loop_picked _ _ _ _ _ _ (le_n_S _ _ L) X NX) as (s' & t & -> & P & K). exists (length t), id, sel, m, (firstn 4 data), (after_id 4 data), s', t.
    split; [reflexivity|]. split; [|auto]. destruct x as [d|e|]; [now destruct (NX d)|now injection H as <- <-|now injection H as <- <-].
  - left. unfold udp_into in H. destruct (id_checks 39 data) as [[]|e|] eqn:C; [|now injection H|now injection H]. unfold cid_from_base32 in H.
    destruct (hash_from_base32 _ _) as [[[]|e|] th]; injection H as <- <-; [now destruct N|reflexivity|reflexivity].
Qed.
Lemma into_crash sp p name data : fst (unmarshal_into sp p name data) = Panic <->
  (kind_of p = "I"%byte /\ data = []) \/ exists q n, half_read data p q n /\ n + 1 + sp < 5.
Proof.
  split.
  - destruct (unmarshal_into sp p name data) as [r q] eqn:H. cbn [fst]. intros ->. destruct (into_left _ _ _ _ _ _ H ltac:(discriminate)) as [->|[n X]].
    + destruct p as [m|m|id m|id to m|id to m|m|id sel m|cid m]; cbn [unmarshal_into] in H.
      * left. unfold plain_into in H. destruct data; [auto|]. destruct (ends_line _); discriminate.
      * unfold plain_into in H. destruct data; [discriminate|]. destruct (ends_line _); discriminate.
      * unfold broadcast_into in H. destruct (id_checks 4 data) as [[]|e|] eqn:C; [|discriminate|now destruct (checks_total _ _ C)]. unfold sid_into in H.
        rewrite (sid_four (firstn 4 data)) in H by now apply checks_four. discriminate.
      * exfalso. unfold direct_into in H. destruct (Nat.ltb_spec (length data) 9) as [L|L]; [discriminate|]. destruct (negb (ends_line data)); [discriminate|].
        destruct (negb (beq (at_ data 4) " ")); [discriminate|]. destruct (_ && _ && _)%bool; [discriminate|]. unfold sid_into in H.
        rewrite (sid_four (firstn 4 data)) in H by (apply firstn_length_le; lia). rewrite (sid_four (firstn 4 (skipn 5 data))) in H by (apply firstn_length_le; rewrite skipn_length; lia). discriminate.
      * exfalso. unfold direct_into in H. destruct (Nat.ltb_spec (length data) 9) as [L|L]; [discriminate|]. destruct (negb (ends_line data)); [discriminate|].
        destruct (negb (beq (at_ data 4) " ")); [discriminate|]. destruct (_ && _ && _)%bool; [discriminate|]. unfold sid_into in H.
        rewrite (sid_four (firstn 4 data)) in H by (apply firstn_length_le; lia). rewrite (sid_four (firstn 4 (skipn 5 data))) in H by (apply firstn_length_le; rewrite skipn_length; lia). discriminate.
      * unfold plain_into in H. destruct data; [discriminate|]. destruct (ends_line _); discriminate.
      * right. unfold feature_into in H. destruct (id_checks 4 data) as [[]|e|] eqn:C; [|discriminate|now destruct (checks_total _ _ C)]. unfold sid_into in H.
        rewrite (sid_four (firstn 4 data)) in H by now apply checks_four.
        assert (A : headed 4 data (firstn 4 data) (after_id 4 data)) by (apply headed_iff; [lia|auto]).
        pose proof (headed_length _ _ _ _ A) as [_ L]. destruct (sel_into _ _ _ _) as [x s] eqn:X. destruct x as [d|e|]; try discriminate.
        destruct (loop_picked _ _ _ _ _ _ (le_n_S _ _ L) X ltac:(discriminate)) as (s' & t & E & P & K).
        exists (PFeature (firstn 4 data) s' m), (length t). split; [exists id, sel, m, (firstn 4 data), (after_id 4 data), s', t; auto 10|].
        rewrite (picked_loop _ _ _ _ P K) in X by lia. destruct (Nat.ltb_spec (length t + S sp) 5); [lia|discriminate].
      * exfalso. unfold udp_into in H. destruct (id_checks 39 data) as [[]|e|] eqn:C; [|discriminate|now destruct (checks_total _ _ C)].
        pose proof (into_packet sp (PUdp cid m) name data) as Y. cbn [unmarshal_into] in Y. unfold udp_into in Y. rewrite C, H in Y. cbn [agrees] in Y.
        rewrite kind_unmarshal in Y. unfold udp_unmarshal in Y. rewrite C in Y. cbn [bind] in Y. destruct (cid_from_base32 _ _) as [[[]|e|] th] eqn:Z; try discriminate.
        unfold cid_from_base32, hash_from_base32 in Z. destruct (b32_decode_string _) as [b [e|]]; [discriminate|]. destruct (_ =? _)%nat; discriminate.
    + right. exists q, n. split; [exact X|]. rewrite (half_into sp _ name _ _ _ X) in H. destruct (Nat.ltb_spec (n + S sp) 5); [lia|discriminate].
  - intros [[K ->]|(q & n & X & L)].
    + destruct p; try discriminate. reflexivity.
    + rewrite (half_into sp _ name _ _ _ X). destruct (Nat.ltb_spec (n + S sp) 5); [reflexivity|lia].
Qed.

(** ** Messages of a program *)
Lemma put_last (a : bytes) c : put_delim (length (a ++ [c])) (a ++ [c]) = a ++ [x0a].
Proof.
  unfold put_delim. rewrite app_length. cbn [length]. replace (length a + 1 - 1) with (length a) by lia.
  rewrite firstn_app, firstn_all, Nat.sub_diag. cbn [firstn]. rewrite app_nil_r. f_equal. rewrite skipn_all2; [reflexivity|]. rewrite app_length. cbn [length]. lia.
Qed.
Lemma line_with_form p c d : exists l, line_with p c d l /\ (forall l', line_with p c d l' -> l' = l) /\
  l = kind_of p :: c_cmd c ++ header' p ++ match d with [] => [] | _ => " "%byte :: d end ++ [x0a].
Proof.
  destruct (header_words p) as (ws & H & U). destruct (U ws H) as [_ E].
  exists (letter p :: join (B " ") (c_cmd c :: ws ++ match d with [] => [] | _ => [d] end) ++ [x0a]). split; [exists ws; auto|]. split.
  - intros l' (ws' & H' & ->). now destruct (U ws' H') as [-> _].
  - rewrite E. change (letter p) with (kind_of p). change (B " ") with [" "%byte]. rewrite join_app_one, flat_map_app, <- !app_assoc. do 3 f_equal. f_equal.
    destruct d; cbn [flat_map]; rewrite ?app_nil_r; reflexivity.
Qed.
Lemma with_done p c d l : gives c d MDone -> line_with p c d l -> forall buf, marshal_packet_with p c buf = (buf ++ l, MDone).
Proof.
  intros G L buf. destruct (line_with_form p c d) as (l' & _ & U & E). rewrite (U l L). clear U L. subst l'. unfold marshal_packet_with. rewrite G.
  destruct d as [|x d].
  - rewrite app_nil_r, Nat.eqb_refl. f_equal. rewrite header_sp.
    replace (buf ++ kind_of p :: c_cmd c ++ header' p ++ [" "%byte]) with ((buf ++ kind_of p :: c_cmd c ++ header' p) ++ [" "%byte]) by (rewrite <- app_assoc; cbn [app]; now rewrite <- app_assoc).
    rewrite put_last. rewrite <- app_assoc. cbn [app]. now rewrite <- app_assoc.
  - rewrite (app_length (buf ++ kind_of p :: c_cmd c ++ header p)). destruct (Nat.eqb_spec (length (buf ++ kind_of p :: c_cmd c ++ header p)) (length (buf ++ kind_of p :: c_cmd c ++ header p) + length (x :: d))) as [X|_]; [cbn [length] in X; lia|].
    f_equal. rewrite header_sp. repeat (rewrite <- app_assoc; cbn [app]). reflexivity.
Qed.
Lemma with_fails p c d r : gives c d r -> r <> MDone -> forall buf, snd (marshal_packet_with p c buf) = r.
Proof. intros G N buf. unfold marshal_packet_with. rewrite G. now destruct r. Qed.
Lemma with_left p c d r : gives c d r -> r <> MDone ->
  exists ws, header_text p ws /\ forall buf, marshal_packet_with p c buf = (buf ++ letter p :: join (B " ") (c_cmd c :: ws) ++ B " " ++ d, r).
Proof.
  intros G N. destruct (header_words p) as (ws & H & U). destruct (U ws H) as [_ E]. exists ws. split; [exact H|]. intros buf. unfold marshal_packet_with. rewrite G.
  replace (join (B " ") (c_cmd c :: ws)) with (c_cmd c ++ header' p) by (rewrite E; change (B " ") with [" "%byte]; now rewrite join_app_one).
  rewrite header_sp. change (letter p) with (kind_of p). change (B " " ++ d) with (" "%byte :: d).
  assert (L : (buf ++ kind_of p :: c_cmd c ++ header' p ++ [" "%byte]) ++ d = buf ++ kind_of p :: (c_cmd c ++ header' p) ++ " "%byte :: d)
    by (repeat (rewrite <- app_assoc; cbn [app]); reflexivity).
  rewrite L. now destruct r.
Qed.
Lemma as_custom_gives m : gives (as_custom m) (marshal m) MDone.
Proof. intros b. reflexivity. Qed.
Lemma line_with_text p l : line_with p (as_custom (message p)) (marshal (message p)) l <-> packet_text p l.
Proof.
  split.
  - intros (ws & H & ->). exists ws, (marshal (message p)). split; [exact H|]. split; [now apply message_text_iff|]. now rewrite code_cmd.
  - intros (ws & d & H & D & ->). apply message_text_iff in D. subst d. exists ws. split; [exact H|]. now rewrite code_cmd.
Qed.
Lemma gives_unique c d r d' r' : gives c d r -> gives c d' r' -> d = d' /\ r = r'.
Proof. intros G G'. specialize (G []). specialize (G' []). rewrite G in G'. now injection G'. Qed.

Section Writer.
Context {W dst : Type} (dstep : dst -> dop -> dst * list bytes).

(** Results of the packet writer, seen by the line writer *)
Definition seen {A} (r : wout (A * W * awriter W dst)) : wout (A * W * writer W dst) :=
  match r with WRet (e, s, x) => WRet (e, s, aw_line x) | WPan => WPan | WStuck => WStuck end.
Lemma write_line_seen s b (x : awriter W dst) : seen (aw_write_line dstep s b x) = write_line dstep s b (aw_line x).
Proof. unfold aw_write_line. now destruct (write_line dstep s b (aw_line x)) as [[[e s'] w']| |]. Qed.
Lemma flush_seen s (x : awriter W dst) : seen (aw_flush dstep s x) =
  match flush dstep (aw_line x) with WRet (e, w') => WRet (e, s, w') | WPan => WPan | WStuck => WStuck end.
Proof. unfold aw_flush. now destruct (flush dstep (aw_line x)) as [[e w']| |]. Qed.

Lemma carried_ex os : appending os -> exists ls, carried os ls.
Proof.
  induction os as [|o os IH]; intros A; [exists []; constructor|]. destruct IH as [ls C]; [intros p c I; apply (A p c); now right|]. destruct o as [p c| |].
  - destruct (A p c (or_introl eq_refl)) as (d & r & G). destruct (line_with_form p c d) as (l & L & _). destruct r as [|e|].
    + exists (LLine l :: ls). now apply (ca_packet p c d).
    + exists ls. now apply (ca_fail p c d (MFail e)).
    + exists ls. now apply (ca_fail p c d MPanic).
  - exists (LLine [x0a] :: ls). now constructor.
  - exists (LFlush :: ls). now constructor.
Qed.
Lemma carried_unique os ls : carried os ls -> forall ls', carried os ls' -> ls' = ls.
Proof.
  induction 1 as [|p c d l os ls G L C IH|p c d r os ls G N C IH|os ls C IH|os ls C IH]; intros ls' C'; inversion C'; subst; try (f_equal; now apply IH); auto.
  - match goal with H : gives c ?d' MDone |- _ => destruct (gives_unique _ _ _ _ _ G H) as [<- _] end. destruct (line_with_form p c d) as (l1 & _ & U & _).
    f_equal; [|now apply IH]. f_equal. rewrite (U l L). now apply U.
  - match goal with H : gives c _ ?r, K : ?r <> MDone |- _ => destruct (gives_unique _ _ _ _ _ G H) as [_ E]; congruence end.
  - match goal with H : gives c _ MDone |- _ => destruct (gives_unique _ _ _ _ _ G H) as [_ E]; congruence end.
Qed.
Lemma calls_carried os ls : carried os ls -> forall s (x : awriter W dst),
  match line_calls dstep ls s (aw_line x) with
  | WRet (es, s', w') => exists rs m, calls dstep os s x = WRet (rs, s', mkAwriter w' m) /\ returned os es rs
  | WPan => calls dstep os s x = WPan
  | WStuck => calls dstep os s x = WStuck
  end.
Proof.
  induction 1 as [|p c d l os ls G L C IH|p c d r os ls G N C IH|os ls C IH|os ls C IH]; intros s x; cbn [line_calls calls call].
  - exists [], (aw_mbuf x). split; [now destruct x|constructor].
  - unfold write_packet_with. rewrite (with_done p c d l G L). cbn [app]. pose proof (write_line_seen s l (mkAwriter (aw_line x) l)) as E. cbn [aw_line] in E. rewrite <- E. clear E.
    destruct (aw_write_line dstep s l (mkAwriter (aw_line x) l)) as [[[e s1] x1]| |]; cbn [seen]; [|reflexivity..]. specialize (IH s1 x1).
    destruct (line_calls dstep ls s1 (aw_line x1)) as [[[es s2] w2]| |]; [|now rewrite IH..]. destruct IH as (rs & m & -> & R). exists (OReturn e :: rs), m. split; [reflexivity|now apply (re_packet p c d)].
  - unfold write_packet_with. pose proof (with_fails p c d r G N []) as F. destruct (marshal_packet_with p c []) as [b r']. cbn [snd] in F. subst r'.
    specialize (IH s (mkAwriter (aw_line x) b)). cbn [aw_line] in IH. destruct r as [|e|]; [congruence| |];
      (destruct (line_calls dstep ls s (aw_line x)) as [[[es s2] w2]| |]; [|now rewrite IH..]; destruct IH as (rs & m & -> & R)).
    + exists (OReturn (Some e) :: rs), m. split; [reflexivity|now apply (re_fail p c d)].
    + exists (OPanic :: rs), m. split; [reflexivity|now apply (re_panic p c d)].
  - unfold write_keep_alive. change [line_delim] with [x0a]. pose proof (write_line_seen s [x0a] x) as E. rewrite <- E. clear E.
    destruct (aw_write_line dstep s [x0a] x) as [[[e s1] x1]| |]; cbn [seen]; [|reflexivity..]. specialize (IH s1 x1).
    destruct (line_calls dstep ls s1 (aw_line x1)) as [[[es s2] w2]| |]; [|now rewrite IH..]. destruct IH as (rs & m & -> & R). exists (OReturn e :: rs), m. split; [reflexivity|now constructor].
  - pose proof (flush_seen s x) as E. rewrite <- E. clear E.
    destruct (aw_flush dstep s x) as [[[e s1] x1]| |]; cbn [seen]; [|reflexivity..]. specialize (IH s1 x1).
    destruct (line_calls dstep ls s1 (aw_line x1)) as [[[es s2] w2]| |]; [|now rewrite IH..]. destruct IH as (rs & m & -> & R). exists (OReturn e :: rs), m. split; [reflexivity|now constructor].
Qed.

(** mbuf is not seen *)
Lemma call_line o s (x y : awriter W dst) : aw_line x = aw_line y -> seen (call dstep o s x) = seen (call dstep o s y).
Proof.
  intros E. assert (WL : forall b m m', seen (aw_write_line dstep s b (mkAwriter (aw_line x) m)) = seen (aw_write_line dstep s b (mkAwriter (aw_line y) m'))).
  { intros b m m'. rewrite !write_line_seen. cbn [aw_line]. now rewrite E. }
  assert (ret : forall r : wout (option error * W * awriter W dst), seen (match r with WRet (e, s', x') => WRet (OReturn e, s', x') | WPan => WPan | WStuck => WStuck end) =
    match seen r with WRet (e, s', x') => WRet (OReturn e, s', x') | WPan => WPan | WStuck => WStuck end) by (now intros [[[e s'] x']| |]).
  destruct o as [p c| |]; cbn [call].
  - unfold write_packet_with. destruct (marshal_packet_with p c []) as [b [|e|]]; [|cbn [seen aw_line]; now rewrite E..]. now rewrite !ret, (WL b b b).
  - unfold write_keep_alive. rewrite !ret. specialize (WL [line_delim] (aw_mbuf x) (aw_mbuf y)). destruct x as [x1 x2], y as [y1 y2]. cbn [aw_line aw_mbuf] in *. now rewrite WL.
  - rewrite !ret, !flush_seen. now rewrite E.
Qed.
Lemma calls_line os : forall s (x y : awriter W dst), aw_line x = aw_line y -> seen (calls dstep os s x) = seen (calls dstep os s y).
Proof.
  induction os as [|o os IH]; intros s x y E; cbn [calls]; [cbn [seen]; now rewrite E|]. pose proof (call_line o s x y E) as C.
  destruct (call dstep o s x) as [[[e s1] x1]| |], (call dstep o s y) as [[[e' s1'] y1]| |]; try discriminate; [|reflexivity..].
  cbn [seen] in C. injection C as <- <- C. specialize (IH s1 x1 y1 C).
  destruct (calls dstep os s1 x1) as [[[es s2] x2]| |], (calls dstep os s1 y1) as [[[es' s2'] y2]| |]; try discriminate; [|reflexivity..].
  cbn [seen] in *. now injection IH as <- <- ->.
Qed.
Lemma calls_without p c b : (forall buf, snd (c_marshal c buf) <> MDone) -> forall a s (x : awriter W dst) rs s' x', calls dstep (a ++ CPacket p c :: b) s x = WRet (rs, s', x') ->
  exists rs1 o rs2 y, rs = rs1 ++ o :: rs2 /\ length rs1 = length a /\ o <> OReturn None /\ calls dstep (a ++ b) s x = WRet (rs1 ++ rs2, s', y) /\ aw_line y = aw_line x'.
Proof.
  intros F. induction a as [|o a IH]; intros s x rs s' x' H; cbn [app calls] in H.
  - cbn [call] in H. unfold write_packet_with in H. assert (X : snd (marshal_packet_with p c []) <> MDone).
    { unfold marshal_packet_with. specialize (F ([] ++ kind_of p :: c_cmd c ++ header p)). destruct (c_marshal c _) as [b' [|e|]]; cbn [snd] in *; [congruence|discriminate..]. }
    destruct (marshal_packet_with p c []) as [m r]. cbn [snd] in X.
    assert (Y : exists o, o <> OReturn None /\ match calls dstep b s (mkAwriter (aw_line x) m) with WRet (es, s2, x2) => WRet (o :: es, s2, x2) | WPan => WPan | WStuck => WStuck end = WRet (rs, s', x')).
    { destruct r as [|e|]; [congruence| |]; eexists; (split; [|exact H]); discriminate. }
    destruct Y as (o & No & Y). clear H. pose proof (calls_line b s (mkAwriter (aw_line x) m) x eq_refl) as L.
    destruct (calls dstep b s (mkAwriter (aw_line x) m)) as [[[es s2] x2]| |]; try discriminate. injection Y as <- -> ->. cbn [app].
    destruct (calls dstep b s x) as [[[es' s2'] y]| |]; try discriminate. cbn [seen] in L. injection L as <- <- L. exists [], o, es, y. auto.
  - destruct (call dstep o s x) as [[[e s1] x1]| |] eqn:C; try discriminate. destruct (calls dstep (a ++ CPacket p c :: b) s1 x1) as [[[es s2] x2]| |] eqn:D; try discriminate.
    injection H as <- -> ->. destruct (IH _ _ _ _ _ D) as (r1 & o' & r2 & y & -> & L & N & K & E). exists (e :: r1), o', r2, y. cbn [app calls length]. rewrite C, K. auto.
Qed.
End Writer.
