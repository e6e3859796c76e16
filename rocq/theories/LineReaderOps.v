(** Reads, binary mode, zlib activation and global invariants of the line reader. *)
From Verif Require Import Base BaseFacts LineReader SpecLine LineReaderFacts LineReaderStream.

Section Ops.
Context {W zstate : Type} (act : zstate -> zaction zstate) (zinit : zstate).
Notation reader := (reader W zstate).
Implicit Types r : reader.

Lemma feeds_delivers st m r s : rd_open r = true -> feeds act st [] m r s -> delivers act r s.
Proof.
  intros Ho Hf n ls rest w outs w' H1 H2 H3 H4.
  destruct (feeds_read_lines act st n ls s rest m r w outs w' Hf Ho H1 H2 H3 H4) as (w2 & r2 & K1 & K2 & K3).
  exists w2, r2. split; [exact K1|]. intros Hl. destruct (K3 Hl) as [-> (_ & Hz & _)]. auto.
Qed.

Lemma plain_feeds st (r : reader) evs ce :
  rd_zcur r = false -> rd_zlib_on r = false -> rd_conn r = evs ++ ce -> Forall (okev st) evs ->
  exists m, feeds act st ce m r (rd_orig r ++ script_data evs).
Proof. intros H1 H2 H3 H4. eexists. exact (F_plain _ _ act st ce r evs _ H1 H2 H3 H4 eq_refl). Qed.

Lemma quiet_okev evs : Forall quiet evs -> Forall (okev Lax) evs.
Proof. apply Forall_impl. intros [d e] H. exact H. Qed.
Lemma no_error_okev evs : Forall no_error evs -> Forall (okev Strict) evs.
Proof. apply Forall_impl. intros [d e] H. exact H. Qed.

(** ** Read *)

Lemma plain_read ce n (r : reader) evs s : 0 < n ->
  rd_zcur r = false -> rd_zlib_on r = false -> rd_conn r = evs ++ ce -> Forall (okev Strict) evs ->
  s = rd_orig r ++ script_data evs ->
  (exists d r' m' s', eventually (fun f => cur_read act f n r = Some (ROk (d, None), r')) /\
     s = d ++ s' /\ feeds act Strict ce m' r' s' /\ m' < length evs + length s /\ length d <= n /\ same_cfg r r') \/
  (s = [] /\ drained ce r).
Proof.
  intros Hn Hz Hon Hc Hev Hs. destruct (rd_orig r) as [|b o] eqn:Eo.
  - destruct evs as [|ev evs]; [right; repeat split; auto|]. left.
    destruct (conn_read_okev Strict n ev evs ce Hn Hev) as (d & e & evs' & H1 & H2 & H3 & H4 & H5 & H6 & H7).
    rewrite (H4 ltac:(discriminate)) in *. cbn [app] in *.
    exists d, (with_plain (evs' ++ ce) [] r), (length evs' + length (script_data evs')), (script_data evs').
    split. { apply eventually_all. intros f. unfold cur_read, cur_buf. rewrite Hz, Eo. unfold under_read. rewrite Hz, Hc, H1, Eo. reflexivity. }
    split; [congruence|]. split; [apply F_plain; cbn; auto|]. split; [subst s; exact H6|].
    split; [apply conn_read_bound in H1; exact H1|repeat split].
  - left. exists (firstn n (b :: o)), (with_plain (rd_conn r) (skipn n (b :: o)) r),
      (length evs + length (skipn n (b :: o) ++ script_data evs)), (skipn n (b :: o) ++ script_data evs).
    split. { apply eventually_all. intros f. unfold cur_read, cur_buf, set_cur_buf. rewrite Hz, Eo. reflexivity. }
    split; [now rewrite app_assoc, firstn_skipn|]. split; [apply F_plain; cbn; auto|].
    split. { subst s. rewrite !app_length, skipn_length. cbn [length]. lia. }
    split; [rewrite firstn_length; lia|repeat split].
Qed.

Lemma reader_read_ok ce n m r s : 0 < n -> rd_open r = true -> feeds act Strict ce m r s ->
  (exists d r' m' s', eventually (fun f => reader_read act f n r = Some (ROk (d, None), r')) /\
     s = d ++ s' /\ feeds act Strict ce m' r' s' /\ m' < m /\ length d <= n /\ same_cfg r r') \/
  (s = [] /\ exists r0, drained ce r0 /\ same_cfg r r0 /\
     eventually (fun f => reader_read act f n r = cur_read act f n r0)).
Proof.
  intros Hn Hop Hf. destruct Hf as [r evs s Hz Hon Hc Hev Hs|r evs k c x rest s Hz Hon Hc Hev Hd Ho Hs].
  - destruct (plain_read ce n r evs s Hn Hz Hon Hc Hev Hs) as [(d & r' & m' & s' & H1 & H2 & H3 & H4 & H5 & H6)|[H1 H2]].
    + left. exists d, r', m', s'. split; [|auto 10].
      eapply eventually_mono; [|exact H1]. intros f E. unfold reader_read. now rewrite Hop, E.
    + right. split; [exact H1|]. exists r. split; [exact H2|]. split; [apply same_cfg_refl|].
      apply eventually_all. intros f. unfold reader_read. rewrite Hop.
      destruct H2 as (G1 & G2 & G3 & G4). unfold cur_read, cur_buf, under_read. rewrite G1, G4.
      destruct (conn_read n (rd_conn r)) as [[d [e|]] c']; [|reflexivity]. cbn. rewrite G2, andb_false_r. reflexivity.
  - destruct (rd_comp r) as [|b0 o] eqn:Eo.
    + destruct (zread_ok _ act n Hn ce rest k (z_pend (rd_z r)) (z_st (rd_z r)) (rd_orig r) evs c x Hd Hev Ho)
        as (d & e & pend' & st' & o' & evs' & k' & c' & x' & R1 & R2 & R3 & R4 & R5 & R6 & R7 & R8 & R9).
      assert (Hev' : eventually (fun f => cur_read act f n r = Some (ROk (d, e), with_z (mkZ pend' st') (with_plain (evs' ++ ce) o' r)))).
      { exists k. intros f Hf. unfold cur_read, cur_buf. rewrite Hz, Eo. unfold under_read. rewrite Hz, Hc.
        destruct (rd_z r) as [pz sz]. cbn [z_pend z_st] in *. rewrite R1 by exact Hf. reflexivity. }
      assert (Hss : s = d ++ pend' ++ x' ++ rest).
      { rewrite Hs. cbn [app]. rewrite app_assoc, R5, <- !app_assoc. reflexivity. }
      destruct R9 as [[-> R9]|(-> & -> & -> & -> & ->)].
      * left. exists d, (with_z (mkZ pend' st') (with_plain (evs' ++ ce) o' r)), (1 + k' + length evs' + length (pend' ++ x' ++ rest)), (pend' ++ x' ++ rest).
        split. { eapply eventually_mono; [|exact Hev']. intros f E. unfold reader_read. now rewrite Hop, E. }
        split; [exact Hss|]. split. { apply (F_z _ _ act Strict ce _ evs' k' c' x' rest); cbn; auto. now rewrite Eo. }
        split. { rewrite Hss, (app_length d). destruct R9 as [R9|R9]; [destruct d; [congruence|cbn [length]; lia]|lia]. }
        split; [exact R6|repeat split].
      * set (r1 := with_mode false false (with_z (mkZ [] (inr EEOF)) (with_plain (evs' ++ ce) o' r))).
        cbn [app] in Hss, R4.
        destruct d as [|b1 d1].
        -- cbn [app] in Hss.
           destruct (plain_read ce n r1 evs' rest Hn) as [(d & r' & m' & s' & H1 & H2 & H3 & H4 & H5 & H6)|[H1 H2]]; try reflexivity; auto.
           { now apply solid_okev. }
           ++ left. exists d, r', m', s'. split.
              { eapply eventually_mono; [|exact (eventually_and _ _ Hev' H1)]. intros f [E1 E2].
                unfold reader_read. rewrite Hop, E1. cbn. rewrite Hon. exact E2. }
              split; [congruence|]. split; [exact H3|]. split; [rewrite Hss; lia|]. split; [exact H5|].
              destruct H6 as (?&?&?&?). repeat split; assumption.
           ++ right. split; [congruence|]. exists r1. split; [exact H2|]. split; [repeat split|].
              eapply eventually_mono; [|exact Hev']. intros f E.
              unfold reader_read. rewrite Hop, E. cbn. rewrite Hon. reflexivity.
        -- left. exists (b1 :: d1), r1, (length evs' + length rest), rest. split.
           { eapply eventually_mono; [|exact Hev']. intros f E. unfold reader_read. rewrite Hop, E. cbn. rewrite Hon. reflexivity. }
           split; [exact Hss|]. split. { apply F_plain; cbn; auto. now apply solid_okev. }
           split. { rewrite Hss, (app_length (b1 :: d1)). cbn [length]. lia. }
           split; [exact R6|repeat split].
    + left. exists (firstn n (b0 :: o)), (with_comp (skipn n (b0 :: o)) r),
        (1 + k + length evs + length (skipn n (b0 :: o) ++ z_pend (rd_z r) ++ x ++ rest)), (skipn n (b0 :: o) ++ z_pend (rd_z r) ++ x ++ rest).
      split. { apply eventually_all. intros f. unfold reader_read, cur_read, cur_buf, set_cur_buf. rewrite Hop, Hz, Eo. reflexivity. }
      split. { rewrite Hs. rewrite (app_assoc (firstn _ _)), firstn_skipn. reflexivity. }
      split. { apply (F_z _ _ act Strict ce _ evs k c x rest); cbn; auto. }
      split. { rewrite Hs, !app_length, skipn_length. cbn [length]. lia. }
      split; [rewrite firstn_length; lia|repeat split].
Qed.

Lemma drained_read n (r : reader) f : drained [] r ->
  cur_read act f n r = Some (ROk ([], Some EEOF), with_plain [] [] r).
Proof. intros (G1 & G2 & G3 & G4). unfold cur_read, cur_buf, under_read. rewrite G1, G4, G3. reflexivity. Qed.

Lemma drained_feeds st (r : reader) : drained [] r -> feeds act st [] 0 r [].
Proof.
  intros (G1 & G2 & G3 & G4). change 0 with (length (@nil read_event) + length (@nil byte)).
  apply F_plain; auto. now rewrite G4.
Qed.

(** ** Binary *)

Lemma binary_read_ok n m r s left : 0 < n -> rd_open r = true -> feeds act Strict [] m r s -> (0 < left)%Z ->
  exists d e r' m' s',
    eventually (fun f => binary_read act f n left r = Some (ROk (d, e), (left - Z.of_nat (length d))%Z, r')) /\
    s = d ++ s' /\ (Z.of_nat (length d) <= left)%Z /\ length d <= n /\ feeds act Strict [] m' r' s' /\ same_cfg r r' /\
    (e = None /\ m' < m \/ e = Some EEOF /\ d = [] /\ s = []).
Proof.
  intros Hn Hop Hf Hl. set (n' := if (left <? Z.of_nat n)%Z then Z.to_nat left else n).
  assert (Hn' : 0 < n' /\ n' <= n /\ (Z.of_nat n' <= left)%Z).
  { unfold n'. destruct (Z.ltb_spec left (Z.of_nat n)); lia. }
  destruct (reader_read_ok [] n' m r s (proj1 Hn') Hop Hf) as [(d & r' & m' & s' & H1 & H2 & H3 & H4 & H5 & H6)|(H1 & r0 & H2 & H3 & H4)].
  - exists d, None, r', m', s'. split.
    { eapply eventually_mono; [|exact H1]. intros f E. unfold binary_read.
      destruct (Z.leb_spec left 0); [lia|]. fold n'. rewrite E. reflexivity. }
    split; [exact H2|]. split; [lia|]. split; [lia|]. auto.
  - exists [], (Some EEOF), (with_plain [] [] r0), 0, []. split.
    { eapply eventually_mono; [|exact H4]. intros f E. unfold binary_read.
      destruct (Z.leb_spec left 0); [lia|]. fold n'. rewrite E, drained_read by exact H2. reflexivity. }
    split; [now subst|]. split; [cbn; lia|]. split; [cbn; lia|].
    split. { apply drained_feeds. destruct H2 as (?&?&?&?). repeat split; auto. }
    split. { destruct H3 as (?&?&?&?). repeat split; auto. }
    right. auto.
Qed.

Lemma binary_close_ok : forall m r s left, rd_open r = true -> feeds act Strict [] m r s -> (0 <= left)%Z ->
  exists r' m', eventually (fun f => binary_close act f left r = Some (ROk None, r')) /\
    feeds act Strict [] m' r' (skipn (Z.to_nat left) s) /\ same_cfg r r'.
Proof.
  induction m as [m IH] using lt_wf_ind. intros r s left Hop Hf Hl.
  destruct (Z.eqb_spec left 0) as [->|Hne].
  - exists r, m. split; [|split; [exact Hf|apply same_cfg_refl]].
    apply eventually_S, eventually_all. intros f. reflexivity.
  - destruct (binary_read_ok discard_buf m r s left) as (d & e & r' & m' & s' & H1 & H2 & H3 & H4 & H5 & H6 & [[-> H7]|(-> & -> & ->)]);
      [unfold discard_buf; lia|exact Hop|exact Hf|lia|..].
    + destruct (IH m' H7 r' s' (left - Z.of_nat (length d))%Z) as (r2 & m2 & K1 & K2 & K3).
      { destruct H6 as (_ & _ & -> & _). exact Hop. } { exact H5. } { lia. }
      exists r2, m2. split.
      { apply eventually_S. eapply eventually_mono; [|exact (eventually_and _ _ H1 K1)]. intros f [E1 E2].
        cbn [binary_close]. rewrite E1. exact E2. }
      split; [|eapply same_cfg_trans; eassumption].
      replace (skipn (Z.to_nat left) s) with (skipn (Z.to_nat (left - Z.of_nat (length d))) s'); [exact K2|].
      subst s. replace (Z.to_nat left) with (length d + Z.to_nat (left - Z.of_nat (length d))) by lia.
      generalize (Z.to_nat (left - Z.of_nat (length d))). intros j.
      rewrite skipn_app, (skipn_all2 d) by lia. cbn [app]. now replace (length d + j - length d) with j by lia.
    + exists r', m'. split.
      { apply eventually_S. eapply eventually_mono; [|exact H1]. intros f E1. cbn [binary_close]. rewrite E1. reflexivity. }
      cbn [app] in H2. subst s'. rewrite skipn_nil. auto.
Qed.

Lemma binary_reads_ok : forall ns m r s left, Forall (fun n => 0 < n) ns ->
  rd_open r = true -> feeds act Strict [] m r s -> (0 <= left)%Z ->
  exists os left' r' m' s', eventually (fun f => binary_reads act f ns left r = Some (os, left', r')) /\
    s = concat (map fst os) ++ s' /\ (left = Z.of_nat (length (concat (map fst os))) + left')%Z /\ (0 <= left')%Z /\
    feeds act Strict [] m' r' s' /\ same_cfg r r' /\
    Forall (fun o => snd o = None \/ snd o = Some EEOF) os /\
    (In (Some EEOF) (map snd os) -> left' = 0%Z \/ s' = []) /\
    Forall2 (fun n o => length (fst o) <= n) ns os.
Proof.
  induction ns as [|n ns IH]; intros m r s left Hns Hop Hf Hl.
  - exists [], left, r, m, s. split; [apply eventually_all; reflexivity|]. cbn.
    split; [reflexivity|]. split; [lia|]. split; [exact Hl|]. split; [exact Hf|]. split; [apply same_cfg_refl|].
    split; [constructor|]. split; [tauto|constructor].
  - inversion Hns as [|? ? Hn Hns']; subst.
    destruct (Z.eqb_spec left 0) as [->|Hne].
    + destruct (IH m r s 0%Z Hns' Hop Hf (Z.le_refl _)) as (os & left' & r' & m' & s' & H1 & H2 & H3 & H4 & H5 & H6 & H7 & H8 & H9).
      exists (([], Some EEOF) :: os), left', r', m', s'. split.
      { eapply eventually_mono; [|exact H1]. intros f E. cbn [binary_reads]. unfold binary_read. cbn. now rewrite E. }
      cbn. repeat (split; [assumption|]).
      split; [constructor; [now right|assumption]|]. split; [intros _; left; lia|].
      constructor; [cbn; lia|assumption].
    + destruct (binary_read_ok n m r s left Hn Hop Hf) as (d & e & r1 & m1 & s1 & H1 & H2 & H3 & H4 & H5 & H6 & H7); [lia|].
      assert (Hop1 : rd_open r1 = true) by (destruct H6 as (_ & _ & -> & _); exact Hop).
      destruct (IH m1 r1 s1 (left - Z.of_nat (length d))%Z Hns' Hop1 H5 ltac:(lia)) as (os & left' & r' & m' & s' & K1 & K2 & K3 & K4 & K5 & K6 & K7 & K8 & K9).
      exists ((d, e) :: os), left', r', m', s'. split.
      { eapply eventually_mono; [|exact (eventually_and _ _ H1 K1)]. intros f [E1 E2]. cbn [binary_reads]. now rewrite E1, E2. }
      cbn. rewrite <- app_assoc, <- K2. split; [exact H2|]. split; [rewrite app_length; lia|].
      split; [exact K4|]. split; [exact K5|]. split; [eapply same_cfg_trans; eassumption|].
      split. { constructor; [|assumption]. cbn. destruct H7 as [[-> _]|[-> _]]; auto. }
      split. { intros [E|E]; [|now apply K8]. destruct H7 as [[-> _]|(_ & -> & ->)]; [discriminate|].
               right. cbn in H2. subst s1. symmetry in K2. now apply app_eq_nil in K2. }
      constructor; [exact H4|assumption].
Qed.

(** ** EnableZlib *)

Lemma zopen_ok ce rest : forall k z o evs c x,
  zdec act k (inl z) c x -> Forall solid evs -> o ++ script_data evs = c ++ rest ->
  exists z' o' evs' k' c', eventually (fun f => zopen act f z o (evs ++ ce) = Some (ROk z', o', evs' ++ ce)) /\
    zdec act k' (inl z') c' x /\ Forall solid evs' /\ o' ++ script_data evs' = c' ++ rest.
Proof.
  induction k as [k IH] using lt_wf_ind. intros z o evs c x Hz Hs Ho.
  inversion Hz as [|k0 z1 K b c0 x0 Ha Hz'|k0 z1 K d c0 x0 Ha Hz'|k0 z1 z' c0 x0 Ha Hz'|k0 z1 d z' c0 x0 Ha Hz'|z1 d Ha]; subst.
  - cbn [app] in Ho. destruct (orig_read_byte_ok o evs ce b (c0 ++ rest) Hs Ho) as (o1 & evs1 & H1 & H2 & H3 & H4).
    destruct (IH k0 ltac:(lia) _ o1 evs1 c0 x Hz' H3 H2) as (z' & o' & evs' & k' & c' & K1 & K2).
    exists z', o', evs', k', c'. split; [|exact K2].
    apply eventually_S. eapply eventually_mono; [|exact K1]. intros f E. cbn [zopen]. rewrite Ha, H1. exact E.
  - rewrite <- app_assoc in Ho. destruct (orig_read_full_ok o evs ce d (c0 ++ rest) Hs Ho) as (o1 & evs1 & H1 & H2 & H3 & H4).
    destruct (IH k0 ltac:(lia) _ o1 evs1 c0 x Hz' H3 H2) as (z' & o' & evs' & k' & c' & K1 & K2).
    exists z', o', evs', k', c'. split; [|exact K2].
    apply eventually_S. eapply eventually_mono; [|exact K1]. intros f E. cbn [zopen]. rewrite Ha, H1. exact E.
  - exists z', o, evs, k0, c. split; [|auto]. apply eventually_S, eventually_all. intros f. cbn [zopen]. now rewrite Ha.
  - exists z, o, evs, (S k0), c. split; [|auto]. apply eventually_S, eventually_all. intros f. cbn [zopen]. now rewrite Ha.
  - exists z, o, evs, 1, []. split; [|auto]. apply eventually_S, eventually_all. intros f. cbn [zopen]. now rewrite Ha.
Qed.

Lemma enable_zlib_ok r m c x rest : rd_open r = true -> rd_zlib_on r = false ->
  feeds act Solid [] m r (c ++ rest) -> inflates act zinit c x ->
  exists r', eventually (fun f => enable_zlib act zinit f r = Some (ROk tt, r')) /\
    (forall lv, exists m', feeds act lv [] m' r' (x ++ rest)) /\ same_cfg r r' /\ rd_zlib_on r' = true.
Proof.
  intros Hop Hon Hf Hi. destruct (inflates_zdec _ _ _ _ _ Hi) as [k Hk].
  remember (c ++ rest) as s eqn:Hs0.
  destruct Hf as [r evs s Hz Hon' Hc Hs Hs1|r evs k0 c0 x0 rest0 s Hz Hon']; [|congruence].
  rewrite app_nil_r in Hc. rewrite Hs1 in Hs0.
  destruct (zopen_ok [] rest k zinit (rd_orig r) evs c x Hk Hs Hs0) as (z' & o' & evs' & k' & c' & K1 & K2 & K3 & K4).
  eexists. split.
  { eapply eventually_mono; [|exact K1]. intros f E. unfold enable_zlib. rewrite Hop, Hon. cbn [with_mode rd_orig rd_conn].
    rewrite app_nil_r in E. rewrite Hc, E. reflexivity. }
  split; [|split; [repeat split|reflexivity]].
  intros lv. eexists. apply (F_z _ _ act lv [] _ evs' k' c' x rest); cbn; auto.
Qed.

(** ** Facts about arbitrary states and connections *)

Lemma zread_len n : forall f z o c d e z' o' c',
  zread act f n z o c = Some (ROk (d, e), z', o', c') -> length d <= n.
Proof.
  induction f as [|f IH]; intros z o c d e z' o' c'; cbn [zread].
  - destruct (z_pend z) as [|p ps] eqn:Ep.
    + destruct (z_st z); intros H; inversion H; subst; cbn; lia.
    + remember (p :: ps) as q. destruct (Nat.ltb_spec n (length q)); intros H'; inversion H'; subst;
        [apply firstn_le_length|assumption].
  - destruct (z_pend z) as [|p ps] eqn:Ep.
    + destruct (z_st z) as [st|e']; [|intros H'; inversion H'; subst; cbn; lia].
      destruct (act st) as [k|m k|st'|d' st'|d'|e'].
      * destruct (orig_read_byte o c) as [[[b|e'|] o2] c2]; [apply IH|..]; intros H'; inversion H'; subst; cbn; lia.
      * destruct (orig_read_full m o c) as [[[e'|b] o2] c2]; [|apply IH]; intros H'; inversion H'; subst; cbn; lia.
      * apply IH.
      * destruct (Nat.ltb_spec n (length d')); intros H'; inversion H'; subst; [apply firstn_le_length|assumption].
      * destruct (Nat.ltb_spec n (length d')); intros H'; inversion H'; subst; [apply firstn_le_length|assumption].
      * intros H'; inversion H'; subst; cbn; lia.
    + remember (p :: ps) as q. destruct (Nat.ltb_spec n (length q)); intros H'; inversion H'; subst;
        [apply firstn_le_length|assumption].
Qed.

Lemma scan_any f (r : reader) out r' : scan act f r = Some (out, r') ->
  same_cfg r r' /\ (bufs_ok r -> bufs_ok r') /\
  match out with
  | ROk (pref, more) =>
      (bufs_ok r -> length pref <= read_buf) /\
      (more = true /\ ~ In (rd_delim r) pref \/ more = false /\ is_line (rd_delim r) pref)
  | _ => True
  end.
Proof.
  assert (Hsb : forall b (r0 : reader) out r', scan_buf (rd_delim r) b r0 = (out, r') -> same_cfg r r0 ->
    length b <= read_buf \/ True ->
    same_cfg r r' /\ (bufs_ok r0 -> length b <= read_buf -> bufs_ok r') /\
    match out with
    | ROk (pref, more) => length pref <= length b /\
        (more = true /\ ~ In (rd_delim r) pref \/ more = false /\ is_line (rd_delim r) pref)
    | _ => True
    end).
  { intros b r0 o r1 H Hc _. unfold scan_buf in H. destruct (index_byte (rd_delim r) b) as [i|] eqn:E.
    - remember (S i) as j eqn:Ej. injection H as <- <-.
      split; [destruct Hc as (?&?&?&?); unfold set_cur_buf; destruct (rd_zcur r0); repeat split; assumption|].
      split. { intros [H1 H2] Hb. unfold set_cur_buf. destruct (rd_zcur r0); split; cbn [with_comp with_plain rd_orig rd_comp]; try assumption;
                 rewrite skipn_length; lia. }
      split; [rewrite firstn_length; lia|]. right. split; [reflexivity|].
      apply index_byte_some in E as (a & t & -> & Hin & <-).
      replace (a ++ rd_delim r :: t) with ((a ++ [rd_delim r]) ++ t) by now rewrite <- app_assoc.
      subst j. replace (S (length a)) with (length (a ++ [rd_delim r])) by (rewrite app_length; cbn; lia).
      rewrite firstn_app_exact. now exists a.
    - injection H as <- <-. apply index_byte_none in E.
      split; [destruct Hc as (?&?&?&?); unfold set_cur_buf; destruct (rd_zcur r0); repeat split; assumption|].
      split. { intros [H1 H2] Hb. unfold set_cur_buf, read_buf. destruct (rd_zcur r0); split; cbn; auto; lia. }
      split; [lia|]. left. auto. }
  unfold scan. destruct (cur_buf r) as [|b0 b] eqn:Eb.
  - destruct (under_read act f read_buf r) as [[o1 r1]|] eqn:Eu; [|discriminate].
    assert (Hc1 : same_cfg r r1).
    { unfold under_read in Eu. destruct (rd_zcur r).
      - destruct (zread act f read_buf (rd_z r) (rd_orig r) (rd_conn r)) as [[[[? ?] ?] ?]|]; [|discriminate].
        injection Eu as <- <-. repeat split.
      - destruct (conn_read read_buf (rd_conn r)) as [[? ?] ?]. injection Eu as <- <-. repeat split. }
    assert (Hb1 : bufs_ok r -> bufs_ok r1) by (exact (under_read_buf _ _ act _ _ _ _ _ Eu)).
    assert (Hlen : forall d e, o1 = ROk (d, e) -> length d <= read_buf).
    { intros d e ->. unfold under_read in Eu. destruct (rd_zcur r).
      - destruct (zread act f read_buf (rd_z r) (rd_orig r) (rd_conn r)) as [[[[? ?] ?] ?]|] eqn:E; [|discriminate].
        injection Eu as -> <-. exact (zread_len _ _ _ _ _ _ _ _ _ _ E).
      - destruct (conn_read read_buf (rd_conn r)) as [[d1 e1] c1] eqn:E. apply conn_read_bound in E.
        injection Eu as -> -> <-. exact E. }
    destruct o1 as [[d e]|e|]; [|intros [= <- <-]; auto..].
    specialize (Hlen d e eq_refl).
    assert (Hgen : forall out r', Some (scan_buf (rd_delim r) d r1) = Some (out, r') ->
      same_cfg r r' /\ (bufs_ok r -> bufs_ok r') /\
      match out with
      | ROk (pref, more) => (bufs_ok r -> length pref <= read_buf) /\
          (more = true /\ ~ In (rd_delim r) pref \/ more = false /\ is_line (rd_delim r) pref)
      | _ => True end).
    { intros o2 r2 [= H]. destruct (Hsb _ _ _ _ H Hc1 (or_intror I)) as (K1 & K2 & K3).
      split; [exact K1|]. split; [intros; apply K2; auto|].
      destruct o2 as [[pref more]|?|]; auto. destruct K3. split; [intros; lia|assumption]. }
    destruct d as [|b0 d]; [destruct e as [e|]|]; try apply Hgen.
    intros [= <- <-]. auto.
  - intros [= H]. destruct (Hsb _ _ _ _ H (same_cfg_refl _ _ r) (or_intror I)) as (K1 & K2 & K3).
    assert (Hbl : bufs_ok r -> length (b0 :: b) <= read_buf).
    { intros [G1 G2]. rewrite <- Eb. unfold cur_buf. destruct (rd_zcur r); assumption. }
    split; [exact K1|]. split; [intros Hb; apply K2; auto|].
    destruct out as [[pref more]|?|]; auto. destruct K3. split; [intros Hb; specialize (Hbl Hb); lia|assumption].
Qed.

Lemma read_loop_any : forall f w line (r : reader) out w' r',
  read_loop act f w line r = Some (out, w', r') ->
  same_cfg r r' /\ (bufs_ok r -> bufs_ok r') /\
  (~ In (rd_delim r) line -> forall l, out = LLine l -> is_line (rd_delim r) l) /\
  (bufs_ok r -> (0 < rd_max r)%Z -> forall l, out = LLine l -> (Z.of_nat (length l) < rd_max r + Z.of_nat read_buf)%Z).
Proof.
  induction f as [|f IH]; intros w line r out w' r' H; cbn [read_loop] in H; [discriminate|].
  destruct ((0 <? rd_max r) && (rd_max r <=? Z.of_nat (length line)))%Z%bool eqn:Eo.
  { injection H as <- <- <-. split; [apply same_cfg_refl|]. split; [auto|]. split; intros; discriminate. }
  destruct (scan act f r) as [[o1 r1]|] eqn:Es; [|discriminate].
  apply scan_any in Es. destruct Es as (Hc & Hb & Ho).
  pose proof Hc as (G1 & G2 & G3 & G4).
  destruct o1 as [[pref more]|e|].
  - destruct Ho as [Hlen [[-> Hin]|[-> Hl]]].
    + apply IH in H. destruct H as (K1 & K2 & K3 & K4). rewrite G1, G2 in *.
      split; [eapply same_cfg_trans; eassumption|]. split; [auto|].
      split; [intros Hn; apply K3; rewrite in_app_iff; tauto|intros; apply K4; auto].
    + destruct (run_hooks (rd_hooks r1) w (line ++ pref)) as [w1 [| |e]].
      * injection H as <- <- <-. split; [exact Hc|]. split; [exact Hb|]. split.
        -- intros Hn l [= <-]. now apply is_line_app.
        -- intros Hbr Hpos l [= <-]. specialize (Hlen Hbr). rewrite app_length.
           apply andb_false_iff in Eo as [Eo|Eo]; lia.
      * apply IH in H. destruct H as (K1 & K2 & K3 & K4). rewrite G1, G2 in *.
        split; [eapply same_cfg_trans; eassumption|]. split; [auto|].
        split; [intros _; apply K3; cbn; tauto|intros; apply K4; auto].
      * injection H as <- <- <-. split; [exact Hc|]. split; [exact Hb|]. split; intros; discriminate.
  - destruct (is_eof e && rd_zlib_on r1)%bool.
    + apply IH in H. destruct H as (K1 & K2 & K3 & K4). cbn in K1, K2, K3, K4. rewrite G1, G2 in *.
      split; [destruct K1 as (?&?&?&?); cbn in *; repeat split; congruence|].
      split; [intros Hbr; apply K2; exact (Hb Hbr)|].
      split; [exact K3|intros Hbr Hpos; apply K4; [exact (Hb Hbr)|exact Hpos]].
    + injection H as <- <- <-. split; [exact Hc|]. split; [exact Hb|]. split; intros; discriminate.
  - injection H as <- <- <-. split; [exact Hc|]. split; [exact Hb|]. split; intros; discriminate.
Qed.

Lemma cur_read_buf f n (r : reader) o r' : cur_read act f n r = Some (o, r') -> bufs_ok r -> bufs_ok r'.
Proof.
  unfold cur_read. destruct (cur_buf r) as [|b0 b] eqn:E.
  - apply under_read_buf.
  - intros [= <- <-] [H1 H2]. unfold set_cur_buf, cur_buf in *. destruct (rd_zcur r); split; cbn [with_comp with_plain rd_orig rd_comp]; auto;
      rewrite skipn_length; [rewrite E in H2|rewrite E in H1]; lia.
Qed.

Lemma reader_read_buf f n (r : reader) o r' : reader_read act f n r = Some (o, r') -> bufs_ok r -> bufs_ok r'.
Proof.
  unfold reader_read. destruct (rd_open r); [|intros [= <- <-]; auto].
  destruct (cur_read act f n r) as [[o1 r1]|] eqn:E; [|discriminate]. pose proof (cur_read_buf _ _ _ _ _ E) as E'. clear E.
  destruct o1 as [[d [e|]]|e|]; try (intros [= <- <-]; exact E').
  destruct (is_eof e && rd_zlib_on r1)%bool; [|intros [= <- <-]; exact E'].
  destruct d as [|b d]; [|intros [= <- <-] Hb; exact (E' Hb)].
  intros H Hb. eapply cur_read_buf; [exact H|]. exact (E' Hb).
Qed.

Lemma binary_read_buf f n l (r : reader) o l' r' : binary_read act f n l r = Some (o, l', r') -> bufs_ok r -> bufs_ok r'.
Proof.
  unfold binary_read. destruct (l <=? 0)%Z; [intros [= <- <- <-]; auto|].
  destruct (reader_read act f _ r) as [[o1 r1]|] eqn:E; [|discriminate]. pose proof (reader_read_buf _ _ _ _ _ E) as E'. clear E.
  destruct o1 as [[d e]|e|]; intros [= <- <- <-]; exact E'.
Qed.

Lemma binary_close_buf : forall f l (r : reader) o r', binary_close act f l r = Some (o, r') -> bufs_ok r -> bufs_ok r'.
Proof.
  induction f as [|f IH]; intros l r o r'; cbn [binary_close]; [discriminate|].
  destruct (binary_read act f discard_buf l r) as [[[o1 l1] r1]|] eqn:E; [|discriminate]. pose proof (binary_read_buf _ _ _ _ _ _ _ E) as E'. clear E.
  destruct o1 as [[d [e|]]|e|]; [intros [= <- <-]; exact E'| |intros [= <- <-]; exact E'..].
  intros H Hb. eapply IH; [exact H|exact (E' Hb)].
Qed.

Lemma zopen_buf : forall f z o c out o' c', zopen act f z o c = Some (out, o', c') ->
  length o <= read_buf -> length o' <= read_buf.
Proof.
  induction f as [|f IH]; intros z o c out o' c'; cbn [zopen]; [discriminate|].
  destruct (act z) as [k|m k|st'|d' st'|d'|e']; try (intros [= <- <- <-]; auto).
  - destruct (orig_read_byte o c) as [[[b|e|] o1] c1] eqn:E; intros H Ho;
      apply orig_read_byte_buf in E; auto; [eauto|inversion H; subst; auto..].
  - destruct (orig_read_full m o c) as [[[e|b] o1] c1] eqn:E; intros H Ho;
      apply orig_read_full_buf in E; auto; [inversion H; subst; auto|eauto].
Qed.

Lemma enable_zlib_buf f (r : reader) o r' : enable_zlib act zinit f r = Some (o, r') -> bufs_ok r -> bufs_ok r'.
Proof.
  unfold enable_zlib. destruct (rd_open r); [|intros [= <- <-]; auto].
  destruct (rd_zlib_on r); [intros [= <- <-]; auto|].
  cbn [with_mode rd_orig rd_conn].
  destruct (zopen act f zinit (rd_orig r) (rd_conn r)) as [[[o1 b] c]|] eqn:E; [|discriminate].
  intros H [H1 H2]. apply zopen_buf in E; [|exact H1].
  destruct o1 as [z|e|]; injection H as <- <-; split; cbn; auto; unfold read_buf; lia.
Qed.

Lemma reachable_bufs r : reachable act zinit r -> bufs_ok r.
Proof.
  induction 1 as [c delim|r r' _ IH Hs].
  - split; cbn; unfold read_buf; lia.
  - destruct Hs as [f w r o w' r' H|f n r o r' H|f n l r o l' r' H|f l r o r' H|f r o r' H|z r|h r|r].
    + unfold read_line in H. destruct (rd_open r); [|injection H as <- <- <-; exact IH].
      apply read_loop_any in H. now apply H.
    + exact (reader_read_buf _ _ _ _ _ H IH).
    + exact (binary_read_buf _ _ _ _ _ _ _ H IH).
    + exact (binary_close_buf _ _ _ _ _ H IH).
    + exact (enable_zlib_buf _ _ _ _ H IH).
    + exact IH.
    + exact IH.
    + split; cbn; unfold read_buf; lia.
Qed.

Lemma under_read_mode f n r o r' : under_read act f n r = Some (o, r') -> rd_zlib_on r' = rd_zlib_on r.
Proof.
  unfold under_read. destruct (rd_zcur r).
  - destruct (zread act f n (rd_z r) (rd_orig r) (rd_conn r)) as [[[[? ?] ?] ?]|]; [|discriminate].
    now intros [= <- <-].
  - destruct (conn_read n (rd_conn r)) as [[? ?] ?]. now intros [= <- <-].
Qed.

Lemma scan_mode f r o r' : scan act f r = Some (o, r') -> rd_zlib_on r' = rd_zlib_on r.
Proof.
  assert (Hsb : forall b r0 out r', scan_buf (rd_delim r) b r0 = (out, r') -> rd_zlib_on r' = rd_zlib_on r0).
  { intros b r0 o1 r1. unfold scan_buf, set_cur_buf. destruct (index_byte (rd_delim r) b);
      destruct (rd_zcur r0); intros [= <- <-]; reflexivity. }
  unfold scan. destruct (cur_buf r) as [|b0 b] eqn:Eb.
  - destruct (under_read act f read_buf r) as [[o1 r1]|] eqn:Eu; [|discriminate]. apply under_read_mode in Eu.
    assert (Hgen : forall d o r', Some (scan_buf (rd_delim r) d r1) = Some (o, r') -> rd_zlib_on r' = rd_zlib_on r).
    { intros d o2 r2 [= H]. apply Hsb in H. congruence. }
    destruct o1 as [[[|b0 d] [e|]]|e|]; try apply Hgen; intros [= <- <-]; exact Eu.
  - intros [= H]. eapply Hsb, H.
Qed.

Lemma read_loop_mode : forall f w line r out w' r',
  read_loop act f w line r = Some (out, w', r') -> rd_zlib_on r = false -> rd_zlib_on r' = false.
Proof.
  induction f as [|f IH]; intros w line r out w' r' H Hz; cbn [read_loop] in H; [discriminate|].
  destruct ((0 <? rd_max r) && (rd_max r <=? Z.of_nat (length line)))%Z%bool; [now injection H as <- <- <-|].
  destruct (scan act f r) as [[o1 r1]|] eqn:Es; [|discriminate].
  apply scan_mode in Es. rewrite Hz in Es. destruct o1 as [[pref [|]]|e|].
  - now apply IH in H.
  - destruct (run_hooks (rd_hooks r1) w (line ++ pref)) as [w1 [| |e]]; try (now injection H as <- <- <-). now apply IH in H.
  - rewrite Es, andb_false_r in H. now injection H as <- <- <-.
  - now injection H as <- <- <-.
Qed.

Lemma rl_mode w line r out w' r' : rl act w line r (out, w', r') -> rd_zlib_on r = false -> rd_zlib_on r' = false.
Proof. intros [f0 H]. exact (read_loop_mode _ _ _ _ _ _ _ (H f0 (le_n _))). Qed.

(** Reading some lines (no hooks) leaves the rest of the stream. *)
Lemma feeds_take st ce : forall ls m r s w, feeds act st ce m r (concat ls ++ s) -> rd_open r = true ->
  rd_hooks r = [] -> Forall (is_line (rd_delim r)) ls -> Forall (fun l => within (rd_max r) (length l)) ls ->
  exists m' r', rls act (length ls) w r (map LLine ls, w, r') /\ feeds act st ce m' r' s /\ same_cfg r r' /\
    (rd_zlib_on r = false -> rd_zlib_on r' = false).
Proof.
  induction ls as [|l ls IH]; intros m r s w Hf Hop Hh Hl Hw.
  - exists m, r. split; [apply rls_0|]. split; [exact Hf|]. split; [apply same_cfg_refl|auto].
  - inversion Hl as [|? ? Hl1 Hl2]; subst. inversion Hw as [|? ? Hw1 Hw2]; subst.
    cbn [concat] in Hf. rewrite <- app_assoc in Hf.
    destruct (loop_line act st ce m r _ [] l (concat ls ++ s) Hf eq_refl Hl1) as (m1 & r1 & H1 & H2 & H3 & H4 & H5);
      [cbn; tauto|exact Hw1|].
    pose proof H3 as (G1 & G2 & G3 & G4).
    assert (Hrl : rl act w [] r (LLine l, w, r1)) by (apply H5; now rewrite Hh).
    destruct (IH m1 r1 s w H1) as (m2 & r2 & K1 & K2 & K3 & K4); try congruence;
      rewrite ?G1, ?G2; try assumption.
    exists m2, r2. split; [eapply rls_cons; eassumption|]. split; [exact K2|].
    split; [eapply same_cfg_trans; eassumption|].
    intros Hz. apply K4. exact (rl_mode _ _ _ _ _ _ Hrl Hz).
Qed.

(** The connection fails with [e] after the data. *)
Lemma feeds_fail st e : forall ls rest m r w, feeds act st [RD [] (Some e)] m r (concat ls ++ rest) ->
  rd_open r = true -> rd_hooks r = [] -> Forall (is_line (rd_delim r)) ls -> ~ In (rd_delim r) rest ->
  Forall (fun l => within (rd_max r) (length l)) ls -> within (rd_max r) (S (length rest)) ->
  forall n, exists r', rls act (length ls + S n) w r
    (map LLine ls ++ LErr (Some rest) e :: repeat (LErr (Some []) EEOF) n, w, r').
Proof.
  induction ls as [|l ls IH]; intros rest m r w Hf Hop Hh Hl Hr Hw Hwr n.
  - cbn [concat app length map Nat.add] in *.
    destruct (loop_rest act st _ m r rest [] Hf Hr Hwr) as (r1 & H1 & H2 & H3 & H4).
    assert (Ho : over r1 rest = false).
    { rewrite (over_cfg r r1 _ H2). apply (over_false r rest _ Hwr). lia. }
    destruct (drained_err act r1 w rest e [] H1 Ho) as (r2 & K1 & K2 & K3).
    assert (Hop2 : rd_open r2 = true).
    { destruct H2 as (_ & _ & E1 & _), K2 as (_ & _ & E2 & _). congruence. }
    destruct (drained_forever act n r2 w Hop2 K1) as (r3 & L1 & L2 & L3).
    exists r3. eapply rls_cons; [exact Hop| |exact L3]. exact (H4 w _ K3).
  - inversion Hl as [|? ? Hl1 Hl2]; subst. inversion Hw as [|? ? Hw1 Hw2]; subst.
    cbn [concat] in Hf. rewrite <- app_assoc in Hf.
    destruct (loop_line act st _ m r _ [] l (concat ls ++ rest) Hf eq_refl Hl1) as (m1 & r1 & H1 & H2 & H3 & H4 & H5);
      [cbn; tauto|exact Hw1|].
    pose proof H3 as (G1 & G2 & G3 & G4).
    assert (Hrl : rl act w [] r (LLine l, w, r1)) by (apply H5; now rewrite Hh).
    destruct (IH rest m1 r1 w H1) with (n := n) as (r2 & K1); try congruence;
      rewrite ?G1, ?G2; try assumption.
    exists r2. cbn [length map app Nat.add]. eapply rls_cons; eassumption.
Qed.

(** Without a limit and without hooks every error comes with the partial line. *)
Lemma read_loop_unlimited : forall f w line r out w' r',
  read_loop act f w line r = Some (out, w', r') -> (rd_max r <= 0)%Z -> rd_hooks r = [] ->
  forall e, out <> LErr None e.
Proof.
  induction f as [|f IH]; intros w line r out w' r' H Hm Hh e; cbn [read_loop] in H; [discriminate|].
  destruct (Z.ltb_spec 0 (rd_max r)) as [Hm'|_]; [lia|]. cbn [andb] in H.
  destruct (scan act f r) as [[o1 r1]|] eqn:Es; [|discriminate].
  apply scan_any in Es. destruct Es as ((G1 & G2 & G3 & G4) & _ & _).
  destruct o1 as [[pref [|]]|e1|].
  - eapply IH in H; [exact H|congruence|congruence].
  - rewrite G4, Hh in H. cbn in H. injection H as <- <- <-. discriminate.
  - destruct (is_eof e1 && rd_zlib_on r1)%bool; [|injection H as <- <- <-; discriminate].
    eapply IH in H; [exact H|cbn; congruence|cbn; congruence].
  - injection H as <- <- <-. discriminate.
Qed.

(** ** Closed readers *)
Lemma closed_step r r' : rd_open r = false -> step act zinit r r' ->
  rd_open r' = false /\ rd_conn r' = rd_conn r.
Proof.
  assert (HB : forall f n l r o l' r', rd_open r = false -> binary_read act f n l r = Some (o, l', r') -> r' = r).
  { intros f n l r0 o l' r1 Ho. unfold binary_read, reader_read. rewrite Ho.
    destruct (l <=? 0)%Z; intros H; inversion H; reflexivity. }
  intros Ho Hs. destruct Hs as [f w r o w' r' H|f n r o r' H|f n l r o l' r' H|f l r o r' H|f r o r' H|z r|h r|r].
  - unfold read_line in H. rewrite Ho in H. now injection H as <- <- <-.
  - unfold reader_read in H. rewrite Ho in H. now injection H as <- <-.
  - apply HB in H; [|exact Ho]. now subst.
  - revert l r o r' Ho H. induction f as [|f IH]; intros l r o r' Ho; cbn [binary_close]; [discriminate|].
    destruct (binary_read act f discard_buf l r) as [[[o1 l1] r1]|] eqn:E; [|discriminate].
    apply HB in E; [|exact Ho]. subst r1.
    destruct o1 as [[d [e|]]|e|]; try (now intros [= <- <-]). now apply IH.
  - unfold enable_zlib in H. rewrite Ho in H. now injection H as <- <-.
  - auto.
  - auto.
  - auto.
Qed.
End Ops.

Lemma reported_total {W} (hs : list (hook W)) : forall ls w, exists outs w', reported hs w ls outs w'.
Proof.
  induction ls as [|l ls IH]; intros w; [exists [], w; constructor|].
  pose proof (run_verdict hs w l) as Hv. destruct (run_hooks hs w l) as [w1 v]. cbn in Hv.
  destruct (IH w1) as (outs & w' & H). destruct v as [| |e].
  - exists (LLine l :: outs), w'. eapply rep_pass; eassumption.
  - exists outs, w'. eapply rep_drop; eassumption.
  - exists (LErr None e :: outs), w'. eapply rep_err; eassumption.
Qed.

Lemma reported_no_hooks {W} (w : W) : forall ls, reported [] w ls (map LLine ls) w.
Proof. induction ls as [|l ls IH]; [constructor|]. eapply rep_pass; [constructor|exact IH]. Qed.

(** ** Statements in the form used by PropsLineReader.v *)
Section Final.
Context {W zstate : Type} (act : zstate -> zaction zstate) (zinit : zstate).
Notation reader := (reader W zstate).
Implicit Types r : reader.

Lemma limited_fields limit hs c delim : let r : reader := limited limit hs c delim in
  rd_delim r = delim /\ rd_max r = limit /\ rd_open r = true /\ rd_conn r = c /\ rd_orig r = [] /\
  rd_zlib_on r = false /\ rd_zcur r = false /\ rd_hooks r = hs.
Proof.
  unfold limited.
  assert (H : forall hs r, let r' := fold_left (fun r h => on_line h r) hs r in
    rd_delim r' = rd_delim r /\ rd_max r' = rd_max r /\ rd_open r' = rd_open r /\ rd_conn r' = rd_conn r /\
    rd_orig r' = rd_orig r /\ rd_zlib_on r' = rd_zlib_on r /\ rd_zcur r' = rd_zcur r /\ rd_hooks r' = rd_hooks r ++ hs).
  { clear. induction hs as [|h hs IH]; intros r; cbn [fold_left].
    - cbv zeta. rewrite app_nil_r. repeat split.
    - specialize (IH (on_line h r)). cbv zeta in *. destruct IH as (H1&H2&H3&H4&H5&H6&H7&H8).
      rewrite H1, H2, H3, H4, H5, H6, H7, H8. cbn. rewrite <- app_assoc. repeat split. }
  specialize (H hs (set_max_line limit (new_reader c delim))). cbv zeta in *. exact H.
Qed.

Lemma limited_feeds lv limit hs c ce delim : Forall (okev lv) c ->
  exists m, feeds act lv ce m (limited (W:=W) limit hs (c ++ ce) delim) (script_data c).
Proof.
  intros H. destruct (limited_fields limit hs (c ++ ce) delim) as (_ & _ & _ & H4 & H5 & H6 & H7 & _).
  destruct (plain_feeds act lv _ c ce H7 H6 H4 H) as [m Hm]. rewrite H5 in Hm. exists m. exact Hm.
Qed.

(** Without hooks the world is never touched. *)
Lemma loop_world w : forall f line r o w1 r1, rd_hooks r = [] ->
  read_loop act f w line r = Some (o, w1, r1) -> w1 = w /\ rd_hooks r1 = [].
Proof.
  induction f as [|f IH]; intros line r o w1 r1 Hh H; cbn [read_loop] in H; [discriminate|].
  destruct ((0 <? rd_max r) && (rd_max r <=? Z.of_nat (length line)))%Z%bool; [injection H as <- <- <-; auto|].
  destruct (scan act f r) as [[o1 r2]|] eqn:Es; [|discriminate].
  apply scan_any in Es. destruct Es as ((G1 & G2 & G3 & G4) & _ & _). rewrite Hh in G4.
  destruct o1 as [[pref [|]]|e|].
  - now apply IH in H.
  - rewrite G4 in H. cbn in H. injection H as <- <- <-. auto.
  - destruct (is_eof e && rd_zlib_on r2)%bool; [|injection H as <- <- <-; auto].
    apply IH in H; auto.
  - injection H as <- <- <-. auto.
Qed.

Lemma lines_world w : forall n f r os w' r', rd_hooks r = [] ->
  read_lines act f n w r = Some (os, w', r') -> w' = w.
Proof.
  induction n as [|n IH]; intros f r os w' r' Hh; cbn [read_lines]; [now intros [= _ <- _]|].
  destruct (read_line act f w r) as [[[o w1] r1]|] eqn:E; [|discriminate].
  assert (w1 = w /\ rd_hooks r1 = []) as [-> Hh1].
  { unfold read_line in E. destruct (rd_open r); [|injection E as <- <- <-; auto]. now apply loop_world in E. }
  destruct (read_lines act f n w r1) as [[[os1 w2] r2]|] eqn:E2; [|discriminate].
  intros [= _ <- _]. eapply IH; [exact Hh1|exact E2].
Qed.

Lemma framing delim c ls rest (w : W) n :
  Forall quiet c -> lines_of delim (script_data c) ls rest ->
  exists r', eventually (fun f =>
    read_lines act f n w (set_max_line 0 (new_reader c delim)) =
    Some (then_eof n (map LLine ls) rest, w, r')).
Proof.
  intros Hq Hl. destruct (limited_feeds Lax 0%Z [] c [] delim (quiet_okev c Hq)) as [m Hm].
  rewrite app_nil_r in Hm. cbn [limited fold_left] in Hm.
  destruct (feeds_read_lines act Lax n ls _ rest m _ w (map LLine ls) w Hm eq_refl Hl) as (w2 & r2 & K1 & K2 & K3).
  - apply Forall_forall. intros l _. left. cbn. lia.
  - left. cbn. lia.
  - apply reported_no_hooks.
  - exists r2. destruct K1 as [f0 K1].
    assert (w2 = w) by (eapply lines_world; [|exact (K1 f0 (le_n _))]; reflexivity).
    subst w2. exists f0. exact K1.
Qed.

Lemma hooks_filter limit hs delim c ls rest (w : W) outs w' n :
  Forall quiet c -> lines_of delim (script_data c) ls rest ->
  Forall (fun l => within limit (length l)) ls -> within limit (S (length rest)) ->
  reported hs w ls outs w' ->
  exists w2 r', eventually (fun f =>
      read_lines act f n w (limited (W:=W) limit hs c delim) = Some (then_eof n outs rest, w2, r')) /\
    (length outs < n -> w2 = w').
Proof.
  intros Hq Hl Hw Hr Hrep. destruct (limited_feeds Lax limit hs c [] delim (quiet_okev c Hq)) as [m Hm].
  rewrite app_nil_r in Hm. destruct (limited_fields limit hs c delim) as (H1 & H2 & H3 & _ & _ & _ & _ & H8).
  destruct (feeds_read_lines act Lax n ls _ rest m _ w outs w' Hm H3) as (w2 & r2 & K1 & K2 & K3);
    rewrite ?H1, ?H2, ?H8; auto.
  exists w2, r2. split; [exact K1|]. intros. now apply K3.
Qed.

Lemma too_long r w big t : reachable act zinit r -> rd_open r = true -> rd_zlib_on r = false -> rd_zcur r = false ->
  Forall quiet (rd_conn r) -> rd_orig r ++ script_data (rd_conn r) = big ++ t -> ~ In (rd_delim r) big ->
  (0 < rd_max r)%Z -> (rd_max r + 2048 - 1 <= Z.of_nat (length big))%Z ->
  exists r', eventually (fun f => read_line act f w r = Some (LErr None err_exhausted, w, r')).
Proof.
  intros Hre Hop Hz Hzc Hq Hs Hb Hp Hl. apply reachable_bufs in Hre.
  destruct (plain_feeds act Lax r (rd_conn r) [] Hzc Hz (eq_sym (app_nil_r _)) (quiet_okev _ Hq)) as [m Hm].
  destruct (loop_long act Lax [] m r _ [] big t Hm Hre Hs) as (m' & r' & line' & s' & _ & _ & _ & _ & _ & _ & _ & K); auto.
  { exists r'. exact (rl_read_line act w r _ Hop (K w)). }
Qed.

Lemma never_longer r f w l w' r' : reachable act zinit r -> (0 < rd_max r)%Z ->
  read_line act f w r = Some (LLine l, w', r') -> (Z.of_nat (length l) <= rd_max r - 1 + 2048)%Z.
Proof.
  intros Hre Hp H. apply reachable_bufs in Hre. unfold read_line in H. destruct (rd_open r); [|discriminate].
  apply read_loop_any in H. destruct H as (_ & _ & _ & H). specialize (H Hre Hp l eq_refl). unfold read_buf in H. lia.
Qed.

Lemma complete_line r f w l w' r' : read_line act f w r = Some (LLine l, w', r') -> is_line (rd_delim r) l.
Proof.
  unfold read_line. destruct (rd_open r); [|discriminate]. intros H. apply read_loop_any in H.
  destruct H as (_ & _ & H & _). apply H; cbn; auto.
Qed.

Lemma unlimited_never_long r f w e w' r' : rd_open r = true -> (rd_max r <= 0)%Z -> rd_hooks r = [] ->
  read_line act f w r <> Some (LErr None e, w', r').
Proof.
  intros Ho Hm Hh H. unfold read_line in H. rewrite Ho in H.
  exact (read_loop_unlimited act _ _ _ _ _ _ _ H Hm Hh e eq_refl).
Qed.

Lemma failing delim c e ls rest (w : W) n : Forall quiet c -> lines_of delim (script_data c) ls rest ->
  exists r', eventually (fun f =>
    read_lines act f (length ls + S n) w (set_max_line 0 (new_reader (c ++ [RD [] (Some e)]) delim)) =
    Some (map LLine ls ++ LErr (Some rest) e :: repeat (LErr (Some []) EEOF) n, w, r')).
Proof.
  intros Hq (Hs & Hl & Hr). destruct (limited_feeds Lax 0%Z [] c [RD [] (Some e)] delim (quiet_okev c Hq)) as [m Hm].
  rewrite Hs in Hm. cbn [limited fold_left] in Hm.
  destruct (feeds_fail act Lax e ls rest m _ w Hm eq_refl eq_refl Hl Hr) with (n := n) as [r' K].
  - apply Forall_forall. intros l _. left. cbn. lia.
  - left. cbn. lia.
  - exists r'. exact K.
Qed.

Lemma binary_exact delim limit hs c sz ns : Forall no_error c -> (sz < 2 ^ 63)%N -> Forall (fun n => 0 < n) ns ->
  let r : reader := limited limit hs c delim in let s := script_data c in
  exists left os left' r1 r2,
    binary sz r = ROk left /\
    eventually (fun f => binary_reads act f ns left r = Some (os, left', r1)) /\
    eventually (fun f => binary_close act f left' r1 = Some (ROk None, r2)) /\
    (exists rest, firstn (N.to_nat sz) s = concat (map fst os) ++ rest) /\
    Forall2 (fun n o => length (fst o) <= n) ns os /\
    Forall (fun o => snd o = None \/ snd o = Some EEOF) os /\
    (In (Some EEOF) (map snd os) -> concat (map fst os) = firstn (N.to_nat sz) s) /\
    delivers act r2 (skipn (N.to_nat sz) s) /\
    rd_delim r2 = delim /\ rd_max r2 = limit /\ rd_hooks r2 = hs.
Proof.
  intros Hq Hsz Hns r s. destruct (limited_feeds Strict limit hs c [] delim (no_error_okev c Hq)) as [m Hm].
  rewrite app_nil_r in Hm. fold r s in Hm. destruct (limited_fields limit hs c delim) as (E1 & E2 & E3 & _ & _ & _ & _ & E8).
  fold r in E1, E2, E3, E8.
  destruct (binary_reads_ok act ns m r s (Z.of_N sz) Hns E3 Hm) as (os & left' & r1 & m1 & s1 & H1 & H2 & H3 & H4 & H5 & H6 & H7 & H8 & H9); [lia|].
  assert (Ho1 : rd_open r1 = true) by (destruct H6 as (_ & _ & -> & _); exact E3).
  destruct (binary_close_ok act m1 r1 s1 left' Ho1 H5 H4) as (r2 & m2 & K1 & K2 & K3).
  pose proof (same_cfg_trans _ _ _ _ _ H6 K3) as (C1 & C2 & C3 & C4).
  assert (Hn : N.to_nat sz = length (concat (map fst os)) + Z.to_nat left') by lia.
  exists (Z.of_N sz), os, left', r1, r2.
  split. { unfold binary. rewrite E3. destruct (N.ltb_spec sz (2 ^ 63)%N); [reflexivity|lia]. }
  split; [exact H1|]. split; [exact K1|].
  assert (Hfn : firstn (N.to_nat sz) s = concat (map fst os) ++ firstn (Z.to_nat left') s1).
  { rewrite Hn, H2 at 1. rewrite firstn_app, firstn_all2 by lia. f_equal. f_equal. lia. }
  split; [exists (firstn (Z.to_nat left') s1); exact Hfn|].
  split; [exact H9|]. split; [exact H7|]. split.
  { intros Hin. rewrite Hfn. destruct (H8 Hin) as [-> | ->]; cbn; [|rewrite firstn_nil]; now rewrite app_nil_r. }
  split.
  { apply (feeds_delivers act Strict m2); [congruence|].
    replace (skipn (N.to_nat sz) s) with (skipn (Z.to_nat left') s1); [exact K2|].
    rewrite Hn, H2. rewrite skipn_app, (skipn_all2 (concat (map fst os))) by lia. cbn [app]. f_equal. lia. }
  split; [congruence|]. split; congruence.
Qed.

Lemma zlib_switch delim limit c ls z x rest (w : W) : Forall solid c ->
  script_data c = concat ls ++ z ++ rest -> Forall (is_line delim) ls ->
  Forall (fun l => within limit (length l)) ls -> inflates act zinit z x ->
  exists r1 r2,
    eventually (fun f => read_lines act f (length ls) w (limited (W:=W) limit [] c delim) = Some (map LLine ls, w, r1)) /\
    eventually (fun f => enable_zlib act zinit f r1 = Some (ROk tt, r2)) /\
    delivers act r2 (x ++ rest) /\
    rd_delim r2 = delim /\ rd_max r2 = limit /\ rd_hooks r2 = [] /\
    forall f, enable_zlib act zinit f r2 = Some (RErr err_zlib_active, r2).
Proof.
  intros Hq Hs Hl Hw Hi.
  destruct (limited_feeds Solid limit [] c [] delim) as [m Hm].
  { revert Hq. apply Forall_impl. intros [d e] H. exact H. }
  rewrite app_nil_r, Hs in Hm. destruct (limited_fields limit [] c delim) as (E1 & E2 & E3 & _ & _ & E6 & _ & E8).
  destruct (feeds_take act Solid [] ls m _ (z ++ rest) w Hm E3 E8) as (m1 & r1 & K1 & K2 & K3 & K4);
    rewrite ?E1, ?E2; auto.
  pose proof K3 as (C1 & C2 & C3 & C4).
  destruct (enable_zlib_ok act zinit r1 m1 z x rest) as (r2 & L1 & L2 & L3 & L4); [congruence|auto|exact K2|exact Hi|].
  pose proof L3 as (D1 & D2 & D3 & D4).
  destruct (L2 Lax) as [m2 Hm2].
  exists r1, r2. split; [exact K1|]. split; [exact L1|].
  assert (Ho2 : rd_open r2 = true) by congruence.
  split; [exact (feeds_delivers act Lax m2 r2 _ Ho2 Hm2)|].
  repeat (split; [congruence|]).
  intros f. unfold enable_zlib. now rewrite Ho2, L4.
Qed.

Lemma closed_forever r r' : rd_open r = false ->
  (forall f w, read_line act f w r = Some (LErr None err_closed, w, r)) /\
  (forall f n, reader_read act f n r = Some (ROk ([], Some err_closed), r)) /\
  (forall sz, binary sz r = RErr err_closed) /\
  (forall f, enable_zlib act zinit f r = Some (RErr err_closed, r)) /\
  (step act zinit r r' -> rd_open r' = false /\ rd_conn r' = rd_conn r).
Proof.
  intros H. unfold read_line, reader_read, binary, enable_zlib. rewrite H.
  repeat (split; [reflexivity|]). now apply closed_step.
Qed.
End Final.
