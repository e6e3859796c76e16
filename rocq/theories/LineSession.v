(** Sessions of the line reader: every call in every order. *)
From Verif Require Import Base BaseFacts LineReader SpecLine SpecSession LineReaderFacts LineReaderStream LineReaderOps.
From Coq Require Import Lia.

Lemma contents_after k t : contents (after k t) = skipn k (contents t).
Proof.
  destruct t as [s|x rest]; cbn [after contents]; [reflexivity|].
  rewrite skipn_app. destruct (Nat.leb_spec k (length x)) as [H|H]; cbn [contents].
  - replace (k - length x) with 0 by lia. reflexivity.
  - rewrite (skipn_all2 x) by lia. reflexivity.
Qed.
Lemma skip_skip {A} (l : list A) : forall b a, skipn a (skipn b l) = skipn (b + a) l.
Proof.
  induction l as [|x l IH]; intros b a; [now rewrite !skipn_nil|].
  destruct b; cbn [skipn Nat.add]; [reflexivity|apply IH].
Qed.
Lemma after_after a b t : after b (after a t) = after (a + b) t.
Proof.
  destruct t as [s|x rest]; cbn [after]; [now rewrite skip_skip|].
  destruct (Nat.leb_spec a (length x)) as [H|H]; cbn [after].
  - rewrite skipn_length, skip_skip. destruct (Nat.leb_spec b (length x - a)), (Nat.leb_spec (a + b) (length x)); try lia; [reflexivity|].
    f_equal. f_equal. lia.
  - destruct (Nat.leb_spec (a + b) (length x)); [lia|]. rewrite skip_skip. f_equal. f_equal. lia.
Qed.
Lemma after_0 t : after 0 t = t.
Proof. now destruct t. Qed.
Lemma after_zip x y rest : after (length x) (Zip (x ++ y) rest) = Zip y rest.
Proof. cbn [after]. rewrite app_length. destruct (Nat.leb_spec (length x) (length x + length y)); [|lia]. now rewrite skipn_app_exact. Qed.
Lemma after_plain x y : after (length x) (Plain (x ++ y)) = Plain y.
Proof. cbn [after]. now rewrite skipn_app_exact. Qed.

Section Session.
Context {W zstate : Type} (act : zstate -> zaction zstate) (zinit : zstate).
(** The reader. *)
Notation reader := (reader W zstate).
Implicit Types r : reader.

(** The reader still has to deliver this stream. *)
Inductive carries : nat -> reader -> stream -> Prop :=
| K_plain r evs s :
    rd_zcur r = false -> rd_zlib_on r = false -> rd_conn r = evs -> Forall solid evs ->
    s = rd_orig r ++ script_data evs ->
    carries (length evs + length s) r (Plain s)
| K_z r evs k c x rest s :
    rd_zcur r = true -> rd_zlib_on r = true -> rd_conn r = evs -> Forall solid evs ->
    zdec act k (z_st (rd_z r)) c x -> rd_orig r ++ script_data evs = c ++ rest ->
    s = rd_comp r ++ z_pend (rd_z r) ++ x ->
    carries (1 + k + length evs + length (s ++ rest)) r (Zip s rest).

(** The reader carries the stream and is in order. *)
Definition tracks (m : nat) r (t : stream) : Prop :=
  carries m r t \/ exists rest, t = Zip [] rest /\ carries m r (Plain rest).

Lemma carries_tracks m r t : carries m r t -> tracks m r t.
Proof. now left. Qed.
(** What is true of the plain stream is true behind the end of the compressed section. *)
Lemma tracks_behind m r k rest : tracks m r (after k (Plain rest)) -> tracks m r (after k (Zip [] rest)).
Proof.
  intros H. cbn [after length]. destruct (Nat.leb_spec k 0) as [L|L].
  - assert (k = 0) as -> by lia. cbn [skipn]. right. exists rest. split; [reflexivity|].
    destruct H as [H|(? & H & _)]; [exact H|discriminate].
  - rewrite Nat.sub_0_r. exact H.
Qed.

Lemma conn_solid n ev evs : 0 < n -> Forall solid (ev :: evs) ->
  exists d evs', conn_read n (ev :: evs) = (d, None, evs') /\ script_data (ev :: evs) = d ++ script_data evs' /\
    Forall solid evs' /\ d <> [] /\ length d <= n /\ length evs' <= length (ev :: evs).
Proof.
  intros Hn H. inversion H as [|[d e] ? [Hd ->] Hl]; subst. cbn [conn_read].
  destruct (Nat.leb_spec (length d) n) as [L|L].
  2:{ exists (firstn n d), (RD (skipn n d) None :: evs). split; [reflexivity|].
    split; [cbn [script_data flat_map]; now rewrite app_assoc, firstn_skipn|].
    split. { constructor; [|exact Hl]. split; [|reflexivity]. intros E. apply (f_equal (@length byte)) in E. rewrite skipn_length in E. cbn in E. lia. }
    split; [apply firstn_nonnil; [lia|exact Hd]|]. split; [apply firstn_le_length|cbn; lia]. }
  exists d, evs. repeat split; auto; cbn; lia.
Qed.

(** One Scan. *)
Lemma scan_carries m r t : carries m r t ->
  (exists pref more r' m',
     eventually (fun f => scan act f r = Some (ROk (pref, more), r')) /\
     contents t = pref ++ contents (after (length pref) t) /\ carries m' r' (after (length pref) t) /\ m' < m /\ same_cfg r r' /\
     (more = true /\ ~ In (rd_delim r) pref \/ more = false /\ is_line (rd_delim r) pref)) \/
  (exists r' m' rest, t = Zip [] rest /\
     eventually (fun f => scan act f r = Some (RErr EEOF, r')) /\ rd_zlib_on r' = true /\
     carries m' (with_mode false false r') (Plain rest) /\ m' < m /\ same_cfg r r') \/
  (t = Plain [] /\ drained [] r).
Proof.
  intros H. destruct H as [r evs s Hz Hon Hc Hev Hs|r evs k c x rest s Hz Hon Hc Hev Hd Ho Hs].
  - destruct (rd_orig r) as [|b0 o] eqn:Eo.
    + destruct evs as [|ev evs].
      { right. right. cbn in Hs. subst s. split; [reflexivity|]. repeat split; auto. }
      left. cbn [app] in Hs. subst s.
      destruct (conn_solid read_buf ev evs) as (d & evs' & H1 & H2 & H3 & H4 & H5 & H6); [unfold read_buf; lia|exact Hev|].
      rewrite H2. destruct (scan_buf_ok _ _ (rd_delim r) d (with_plain evs' [] r) H4) as (pref & more & rest & r' & G1 & G2 & G3 & G4 & G5).
      exists pref, more, r', (length evs' + length (rest ++ script_data evs')).
      split. { exists 0. intros f _. unfold scan, cur_buf. rewrite Hz, Eo. unfold under_read. rewrite Hz, Hc, H1. cbn. rewrite Eo. destruct d; [congruence|]. now rewrite G1. }
      assert (Hr' : r' = with_plain evs' rest r).
      { rewrite G4. unfold set_cur_buf. cbn [with_plain rd_zcur]. rewrite Hz. reflexivity. }
      rewrite G2, <- app_assoc, after_plain. split; [reflexivity|].
      rewrite Hr'. split; [apply K_plain; cbn; auto|].
      split. { rewrite !app_length. destruct pref; [congruence|]. cbn [length] in *. lia. }
      split; [repeat split|exact G5].
    + left. destruct (scan_buf_ok _ _ (rd_delim r) (b0 :: o) r) as (pref & more & rest & r' & G1 & G2 & G3 & G4 & G5); [discriminate|].
      exists pref, more, r', (length evs + length (rest ++ script_data evs)).
      split. { exists 0. intros f _. unfold scan, cur_buf. rewrite Hz, Eo, G1. reflexivity. }
      rewrite Hs, G2, <- app_assoc, after_plain. split; [reflexivity|].
      assert (Hr' : r' = with_plain (rd_conn r) rest r).
      { rewrite G4. unfold set_cur_buf. rewrite Hz. reflexivity. }
      rewrite Hr'. split; [apply K_plain; cbn; auto|].
      split. { rewrite !app_length. destruct pref; [congruence|]. cbn [length]. lia. }
      split; [repeat split|exact G5].
  - destruct (rd_comp r) as [|b0 o] eqn:Eo.
    + destruct (zread_ok _ act read_buf ltac:(unfold read_buf; lia) [] rest k (z_pend (rd_z r)) (z_st (rd_z r)) (rd_orig r) evs c x Hd Hev Ho)
        as (d & e & pend' & st' & o' & evs' & k' & c' & x' & R1 & R2 & R3 & R4 & R5 & R6 & R7 & R8 & R9).
      assert (Hev' : eventually (fun f => under_read act f read_buf r = Some (ROk (d, e), with_z (mkZ pend' st') (with_plain evs' o' r)))).
      { exists k. intros f Hf. unfold under_read. rewrite Hz, Hc.
        destruct (rd_z r) as [pz sz]. cbn [z_pend z_st] in *. specialize (R1 f Hf). rewrite !app_nil_r in R1. rewrite R1. reflexivity. }
      cbn [app] in Hs. rewrite R5 in Hs.
      destruct d as [|b1 d1].
      * destruct e as [err|].
        -- destruct R9 as [[R9 _]|(R9 & -> & -> & -> & ->)]; [discriminate|]. injection R9 as ->. cbn in Hs. subst s.
           right. left. exists (with_z (mkZ [] (inr EEOF)) (with_plain evs' o' r)), (length evs' + length rest), rest.
           split; [reflexivity|].
           split. { destruct Hev' as [f0 Hf0]. exists f0. intros f Hf. unfold scan, cur_buf. rewrite Hz, Eo, (Hf0 f Hf). reflexivity. }
           split; [exact Hon|].
           split. { apply K_plain; cbn; auto. }
           split; [cbn; lia|]. repeat split.
        -- destruct R9 as [[_ [R9|R9]]|[R9 _]]; try congruence.
           left. cbn [app] in *.
           exists [], true, (set_cur_buf [] (with_z (mkZ pend' st') (with_plain evs' o' r))), (1 + k' + length evs' + length (s ++ rest)).
           split. { destruct Hev' as [f0 Hf0]. exists f0. intros f Hf. unfold scan, cur_buf. rewrite Hz, Eo, (Hf0 f Hf). reflexivity. }
           cbn [length]. rewrite after_0. split; [reflexivity|].
           unfold set_cur_buf. cbn [with_plain with_z rd_zcur]. rewrite Hz.
           split. { apply (K_z _ evs' k' c' x' rest s); cbn; auto. }
           split; [lia|]. split; [repeat split|]. left. auto.
      * left.
        destruct (scan_buf_ok _ _ (rd_delim r) (b1 :: d1) (with_z (mkZ pend' st') (with_plain evs' o' r))) as (pref & more & rest0 & r' & G1 & G2 & G3 & G4 & G5); [discriminate|].
        assert (Hr' : r' = with_comp rest0 (with_z (mkZ pend' st') (with_plain evs' o' r))).
        { rewrite G4. unfold set_cur_buf. cbn [with_plain with_z rd_zcur]. rewrite Hz. reflexivity. }
        exists pref, more, r', (1 + k' + length evs' + length ((rest0 ++ pend' ++ x') ++ rest)).
        split. { destruct Hev' as [f0 Hf0]. exists f0. intros f Hf. unfold scan, cur_buf. rewrite Hz, Eo, (Hf0 f Hf), G1. destruct e; reflexivity. }
        assert (Hss : s = pref ++ rest0 ++ pend' ++ x') by (rewrite Hs, G2, <- app_assoc; reflexivity).
        rewrite Hss, after_zip. split; [cbn [contents]; now rewrite <- app_assoc|].
        rewrite Hr'. split; [apply (K_z _ evs' k' c' x' rest); cbn; auto|].
        split. { rewrite !app_length. destruct pref; [congruence|]. cbn [length]. lia. }
        split; [repeat split|exact G5].
    + left. destruct (scan_buf_ok _ _ (rd_delim r) (b0 :: o) r) as (pref & more & rest0 & r' & G1 & G2 & G3 & G4 & G5); [discriminate|].
      assert (Hr' : r' = with_comp rest0 r).
      { rewrite G4. unfold set_cur_buf. rewrite Hz. reflexivity. }
      exists pref, more, r', (1 + k + length evs + length ((rest0 ++ z_pend (rd_z r) ++ x) ++ rest)).
      split. { exists 0. intros f _. unfold scan, cur_buf. rewrite Hz, Eo, G1. reflexivity. }
      assert (Hss : s = pref ++ rest0 ++ z_pend (rd_z r) ++ x).
      { rewrite Hs, G2, <- app_assoc. reflexivity. }
      rewrite Hss, after_zip. split; [cbn [contents]; now rewrite <- app_assoc|].
      rewrite Hr'. split; [apply (K_z _ evs k c x rest); cbn; auto|].
      split. { rewrite !app_length. destruct pref; [congruence|]. cbn [length]. lia. }
      split; [repeat split|exact G5].
Qed.

Lemma contents_behind k rest : contents (after k (Zip [] rest)) = contents (after k (Plain rest)).
Proof. rewrite !contents_after. reflexivity. Qed.

Lemma scan_tracks m r t : tracks m r t ->
  (exists pref more r' m',
     eventually (fun f => scan act f r = Some (ROk (pref, more), r')) /\
     contents t = pref ++ contents (after (length pref) t) /\ tracks m' r' (after (length pref) t) /\ m' < m /\ same_cfg r r' /\
     (more = true /\ ~ In (rd_delim r) pref \/ more = false /\ is_line (rd_delim r) pref)) \/
  (exists r' m', eventually (fun f => scan act f r = Some (RErr EEOF, r')) /\ rd_zlib_on r' = true /\
     tracks m' (with_mode false false r') t /\ m' < m /\ same_cfg r r') \/
  (contents t = [] /\ drained [] r).
Proof.
  intros [H|(rest & -> & H)].
  - destruct (scan_carries m r t H) as [(pref & more & r' & m' & H1 & H2 & H3 & H4 & H5 & H6)|[(r' & m' & rest & -> & H1 & H2 & H3 & H4 & H5)|[-> H1]]].
    + left. exists pref, more, r', m'. repeat (split; [assumption|]). split; [now left|]. auto.
    + right. left. exists r', m'. repeat (split; [assumption|]). split; [right; eauto|]. auto.
    + right. right. auto.
  - destruct (scan_carries m r _ H) as [(pref & more & r' & m' & H1 & H2 & H3 & H4 & H5 & H6)|[(r' & m' & rest' & E & _)|[E H1]]]; [|discriminate|].
    + left. exists pref, more, r', m'. split; [exact H1|]. rewrite contents_behind. split; [exact H2|].
      split; [apply tracks_behind; now left|]. auto.
    + right. right. injection E as ->. auto.
Qed.

(** ReadLine. *)
Lemma tracks_line : forall m r t line l u,
  tracks m r t -> line ++ contents t = l ++ u -> is_line (rd_delim r) l -> ~ In (rd_delim r) line ->
  within (rd_max r) (length l) ->
  exists m' r', tracks m' r' (after (length l - length line) t) /\ same_cfg r r' /\
    forall w out,
      match run_hooks (rd_hooks r) w l with
      | (w', HPass) => out = (LLine l, w', r')
      | (w', HErr e) => out = (LErr None e, w', r')
      | (w', HDrop) => rl act w' [] r' out
      end -> rl act w line r out.
Proof.
  induction m as [m IH] using lt_wf_ind. intros r t line l u Hf Hs Hl Hn Hw.
  pose proof (is_line_prefix _ _ _ _ _ Hn Hl Hs) as Hlt.
  pose proof (over_false r line _ Hw Hlt) as Ho.
  destruct (scan_tracks m r t Hf) as [(pref & more & r' & m' & H1 & H2 & H3 & H4 & H5 & [[-> H7]|[-> H7]])|[(r' & m' & H1 & H2 & H3 & H4 & H5)|[E Hd]]].
  - pose proof H5 as (G1 & G2 & G3 & G4). rewrite H2, app_assoc in Hs.
    destruct (IH m' H4 r' _ (line ++ pref) l u H3 Hs) as (m2 & r2 & K1 & K3 & K5).
    { now rewrite G1. } { rewrite G1, in_app_iff. tauto. } { now rewrite G2. }
    exists m2, r2. split.
    { rewrite after_after in K1. replace (length l - length line) with (length pref + (length l - length (line ++ pref))); [exact K1|].
      assert (Hlt2 : length (line ++ pref) < length l).
      { apply (is_line_prefix (rd_delim r) (line ++ pref) (contents (after (length pref) t)) l u); auto. rewrite in_app_iff. tauto. }
      rewrite app_length in *. lia. }
    split; [eapply same_cfg_trans; eassumption|].
    intros w out Hout. eapply rl_more; [exact Ho|exact H1|]. apply K5. now rewrite G4.
  - rewrite H2, app_assoc in Hs.
    apply (is_line_inj (rd_delim r)) in Hs; [|now apply is_line_app|exact Hl]. destruct Hs as [<- Hs].
    exists m', r'. split; [rewrite app_length; replace (length line + length pref - length line) with (length pref) by lia; exact H3|].
    split; [exact H5|]. intros w out Hout. eapply rl_line; [exact Ho|exact H1|]. destruct H5 as (_ & _ & _ & ->). exact Hout.
  - assert (G : same_cfg r (with_mode false false r')) by (destruct H5 as (?&?&?&?); repeat split; assumption).
    pose proof G as (G1 & G2 & G3 & G4).
    destruct (IH m' H4 _ t line l u H3 Hs) as (m2 & r2 & K1 & K3 & K5).
    { now rewrite G1. } { now rewrite G1. } { now rewrite G2. }
    exists m2, r2. split; [exact K1|]. split; [eapply same_cfg_trans; eassumption|].
    intros w out Hout. eapply rl_switch; [exact Ho|exact H1|exact H2|]. apply K5. now rewrite G4.
  - exfalso. rewrite E, app_nil_r in Hs. subst line. rewrite app_length in Hlt. lia.
Qed.

Lemma tracks_rest : forall m r t line,
  tracks m r t -> ~ In (rd_delim r) (line ++ contents t) -> within (rd_max r) (S (length (line ++ contents t))) ->
  exists r', drained [] r' /\ same_cfg r r' /\
    forall w out, rl act w (line ++ contents t) r' out -> rl act w line r out.
Proof.
  induction m as [m IH] using lt_wf_ind. intros r t line Hf Hn Hw.
  assert (Ho : over r line = false).
  { apply (over_false r line _ Hw). rewrite app_length. lia. }
  destruct (scan_tracks m r t Hf) as [(pref & more & r' & m' & H1 & H2 & H3 & H4 & H5 & [[-> H7]|[-> H7]])|[(r' & m' & H1 & H2 & H3 & H4 & H5)|[E Hd]]].
  - pose proof H5 as (G1 & G2 & G3 & G4). rewrite H2, app_assoc in *.
    destruct (IH m' H4 r' _ (line ++ pref) H3) as (r2 & K1 & K2 & K4).
    { now rewrite G1. } { now rewrite G2. }
    exists r2. split; [exact K1|]. split; [eapply same_cfg_trans; eassumption|].
    intros w out Hout. eapply rl_more; [exact Ho|exact H1|]. apply K4, Hout.
  - exfalso. apply Hn. rewrite H2, !in_app_iff. destruct H7 as (b & -> & _). rewrite in_app_iff. cbn. tauto.
  - assert (G : same_cfg r (with_mode false false r')) by (destruct H5 as (?&?&?&?); repeat split; assumption).
    pose proof G as (G1 & G2 & G3 & G4).
    destruct (IH m' H4 _ t line H3) as (r2 & K1 & K2 & K4).
    { now rewrite G1. } { now rewrite G2. }
    exists r2. split; [exact K1|]. split; [eapply same_cfg_trans; eassumption|].
    intros w out Hout. eapply rl_switch; [exact Ho|exact H1|exact H2|]. apply K4, Hout.
  - exists r. split; [exact Hd|]. split; [apply same_cfg_refl|].
    intros w out. now rewrite E, app_nil_r.
Qed.

(** Read. *)
Lemma drained_carries r : drained [] r -> carries 0 r (Plain []).
Proof.
  intros (G1 & G2 & G3 & G4). change 0 with (length (@nil read_event) + length (@nil byte)).
  apply K_plain; auto. now rewrite G4.
Qed.

Lemma read_plain n m r s : 0 < n -> carries m r (Plain s) ->
  (exists d r' m', eventually (fun f => cur_read act f n r = Some (ROk (d, None), r')) /\
     s = d ++ contents (after (length d) (Plain s)) /\ carries m' r' (after (length d) (Plain s)) /\ m' < m /\ length d <= n /\ same_cfg r r') \/
  (s = [] /\ drained [] r).
Proof.
  intros Hn H. remember (Plain s) as t eqn:Et. destruct H as [r evs s0 Hz Hon Hc Hev Hs|]; [|discriminate]. injection Et as ->.
  destruct (rd_orig r) as [|b o] eqn:Eo.
  - destruct evs as [|ev evs]; [right; repeat split; auto|]. left.
    destruct (conn_solid n ev evs Hn Hev) as (d & evs' & H1 & H2 & H3 & H4 & H5 & H6).
    cbn [app] in Hs. rewrite Hs, H2.
    exists d, (with_plain evs' [] r), (length evs' + length (script_data evs')).
    split. { apply eventually_all. intros f. unfold cur_read, cur_buf. rewrite Hz, Eo. unfold under_read. rewrite Hz, Hc, H1, Eo. reflexivity. }
    rewrite after_plain. split; [reflexivity|]. split; [apply K_plain; cbn; auto|].
    split. { rewrite app_length. destruct d; [congruence|]. cbn [length] in *. lia. }
    split; [exact H5|repeat split].
  - left. exists (firstn n (b :: o)), (with_plain (rd_conn r) (skipn n (b :: o)) r),
      (length evs + length (skipn n (b :: o) ++ script_data evs)).
    split. { apply eventually_all. intros f. unfold cur_read, cur_buf, set_cur_buf. rewrite Hz, Eo. reflexivity. }
    assert (E : s = firstn n (b :: o) ++ skipn n (b :: o) ++ script_data evs) by now rewrite app_assoc, firstn_skipn.
    rewrite E, after_plain. split; [reflexivity|]. split; [apply K_plain; cbn; auto|].
    split. { rewrite !app_length, skipn_length, firstn_length. cbn [length]. lia. }
    split; [rewrite firstn_length; lia|repeat split].
Qed.

Lemma read_carries n m r t : 0 < n -> rd_open r = true -> carries m r t ->
  (exists d r' m', eventually (fun f => reader_read act f n r = Some (ROk (d, None), r')) /\
     contents t = d ++ contents (after (length d) t) /\ tracks m' r' (after (length d) t) /\ m' < m /\ length d <= n /\ same_cfg r r') \/
  (contents t = [] /\ exists r' m', carries m' r' (Plain []) /\ same_cfg r r' /\
     eventually (fun f => reader_read act f n r = Some (ROk ([], Some EEOF), r'))).
Proof.
  intros Hn Hop H. pose proof H as H0. destruct H as [r evs s Hz Hon Hc Hev Hs|r evs k c x rest s Hz Hon Hc Hev Hd Ho Hs].
  - destruct (read_plain n _ r s Hn H0) as [(d & r' & m' & H1 & H2 & H3 & H4 & H5 & H6)|[H1 H2]].
    + left. exists d, r', m'. split; [|repeat split; try apply H6; auto; now left].
      eapply eventually_mono; [|exact H1]. intros f E. unfold reader_read. now rewrite Hop, E.
    + right. split; [exact H1|]. exists (with_plain [] [] r), 0. split; [apply drained_carries; destruct H2 as (?&?&?&?); repeat split; auto|].
      split; [repeat split|]. apply eventually_all. intros f. unfold reader_read. rewrite Hop, drained_read by exact H2. cbn. now rewrite Hon.
  - destruct (rd_comp r) as [|b0 o] eqn:Eo.
    + destruct (zread_ok _ act n Hn [] rest k (z_pend (rd_z r)) (z_st (rd_z r)) (rd_orig r) evs c x Hd Hev Ho)
        as (d & e & pend' & st' & o' & evs' & k' & c' & x' & R1 & R2 & R3 & R4 & R5 & R6 & R7 & R8 & R9).
      assert (Hev' : eventually (fun f => cur_read act f n r = Some (ROk (d, e), with_z (mkZ pend' st') (with_plain evs' o' r)))).
      { exists k. intros f Hf. unfold cur_read, cur_buf. rewrite Hz, Eo. unfold under_read. rewrite Hz, Hc.
        destruct (rd_z r) as [pz sz]. cbn [z_pend z_st] in *. specialize (R1 f Hf). rewrite !app_nil_r in R1. rewrite R1. reflexivity. }
      cbn [app] in Hs. rewrite R5 in Hs.
      destruct R9 as [[-> R9]|(-> & -> & -> & -> & ->)].
      * left. exists d, (with_z (mkZ pend' st') (with_plain evs' o' r)), (1 + k' + length evs' + length ((pend' ++ x') ++ rest)).
        split. { eapply eventually_mono; [|exact Hev']. intros f E. unfold reader_read. now rewrite Hop, E. }
        rewrite Hs, after_zip. split; [cbn [contents]; now rewrite <- app_assoc|].
        split. { left. apply (K_z _ evs' k' c' x' rest); cbn; auto. now rewrite Eo. }
        split. { rewrite !app_length. destruct R9 as [R9|R9]; [destruct d; [congruence|cbn [length]; lia]|lia]. }
        split; [exact R6|repeat split].
      * set (r1 := with_mode false false (with_z (mkZ [] (inr EEOF)) (with_plain evs' o' r))).
        rewrite !app_nil_r in Hs. cbn [app] in R4. subst s.
        assert (P1 : carries (length evs' + length rest) r1 (Plain rest)) by (apply K_plain; cbn; auto).
        destruct d as [|b1 d1].
        -- destruct (read_plain n _ r1 rest Hn P1) as [(d & r' & m' & H1 & H2 & H3 & H4 & H5 & H6)|[H1 H2]].
           ++ left. exists d, r', m'. split.
              { eapply eventually_mono; [|exact (eventually_and _ _ Hev' H1)]. intros f [E1 E2].
                unfold reader_read. rewrite Hop, E1. cbn. rewrite Hon. exact E2. }
              rewrite contents_behind. split; [exact H2|]. split; [apply tracks_behind; now left|]. split; [cbn [app]; lia|]. split; [exact H5|].
              destruct H6 as (?&?&?&?). repeat split; assumption.
           ++ right. split; [exact H1|]. exists (with_plain [] [] r1), 0. split; [apply drained_carries; destruct H2 as (?&?&?&?); repeat split; auto|].
              split; [repeat split|].
              eapply eventually_mono; [|exact Hev']. intros f E.
              unfold reader_read. rewrite Hop, E. cbn [is_eof andb with_z with_plain rd_zlib_on]. rewrite Hon. fold r1. now apply drained_read.
        -- left. exists (b1 :: d1), r1, (length evs' + length rest). split.
           { eapply eventually_mono; [|exact Hev']. intros f E. unfold reader_read. rewrite Hop, E. cbn. rewrite Hon. reflexivity. }
           pose proof (after_zip (b1 :: d1) [] rest) as Z0. rewrite app_nil_r in Z0. rewrite Z0.
           split; [reflexivity|]. split; [right; eauto|].
           split. { rewrite app_length. cbn [length]. lia. }
           split; [exact R6|repeat split].
    + left. exists (firstn n (b0 :: o)), (with_comp (skipn n (b0 :: o)) r),
        (1 + k + length evs + length ((skipn n (b0 :: o) ++ z_pend (rd_z r) ++ x) ++ rest)).
      split. { apply eventually_all. intros f. unfold reader_read, cur_read, cur_buf, set_cur_buf. rewrite Hop, Hz, Eo. reflexivity. }
      assert (E : s = firstn n (b0 :: o) ++ skipn n (b0 :: o) ++ z_pend (rd_z r) ++ x) by (rewrite Hs, (app_assoc (firstn _ _)), firstn_skipn; reflexivity).
      rewrite E, after_zip. split; [cbn [contents]; now rewrite <- app_assoc|].
      split. { left. apply (K_z _ evs k c x rest); cbn; auto. }
      split. { rewrite !app_length, skipn_length, firstn_length. cbn [length]. lia. }
      split; [rewrite firstn_length; lia|repeat split].
Qed.

Lemma read_tracks n m r t : 0 < n -> rd_open r = true -> tracks m r t ->
  (exists d r' m', eventually (fun f => reader_read act f n r = Some (ROk (d, None), r')) /\
     contents t = d ++ contents (after (length d) t) /\ tracks m' r' (after (length d) t) /\ m' < m /\ length d <= n /\ same_cfg r r') \/
  (contents t = [] /\ exists r' m', tracks m' r' (Plain []) /\ same_cfg r r' /\
     eventually (fun f => reader_read act f n r = Some (ROk ([], Some EEOF), r'))).
Proof.
  intros Hn Hop [H|(rest & -> & H)].
  - destruct (read_carries n m r t Hn Hop H) as [K|(E & r' & m' & K1 & K2)]; [now left|]. right. split; [exact E|]. exists r', m'. split; [now left|exact K2].
  - destruct (read_carries n m r _ Hn Hop H) as [(d & r' & m' & H1 & H2 & H3 & H4)|(E & r' & m' & K1 & K2)].
    + left. exists d, r', m'. split; [exact H1|]. rewrite contents_behind. split; [exact H2|]. split; [now apply tracks_behind|exact H4].
    + right. split; [exact E|]. exists r', m'. split; [now left|exact K2].
Qed.

Lemma binary_tracks n m r t left : 0 < n -> rd_open r = true -> tracks m r t -> (0 < left)%Z ->
  (exists d r' m', eventually (fun f => binary_read act f n left r = Some (ROk (d, None), (left - Z.of_nat (length d))%Z, r')) /\
     contents t = d ++ contents (after (length d) t) /\ tracks m' r' (after (length d) t) /\ m' < m /\ length d <= n /\
     (Z.of_nat (length d) <= left)%Z /\ same_cfg r r') \/
  (contents t = [] /\ exists r' m', tracks m' r' (Plain []) /\ same_cfg r r' /\
     eventually (fun f => binary_read act f n left r = Some (ROk ([], Some EEOF), left, r'))).
Proof.
  intros Hn Hop Hf Hl. set (n' := if (left <? Z.of_nat n)%Z then Z.to_nat left else n).
  assert (Hn' : 0 < n' /\ n' <= n /\ (Z.of_nat n' <= left)%Z).
  { unfold n'. destruct (Z.ltb_spec left (Z.of_nat n)); lia. }
  destruct (read_tracks n' m r t (proj1 Hn') Hop Hf) as [(d & r' & m' & H1 & H2 & H3 & H4 & H5 & H6)|(H1 & r' & m' & H2 & H3 & H4)].
  - left. exists d, r', m'. split.
    { eapply eventually_mono; [|exact H1]. intros f E. unfold binary_read.
      destruct (Z.leb_spec left 0); [lia|]. fold n'. rewrite E. reflexivity. }
    split; [exact H2|]. split; [exact H3|]. split; [exact H4|]. split; [lia|]. split; [lia|exact H6].
  - right. split; [exact H1|]. exists r', m'. split; [exact H2|]. split; [exact H3|].
    eapply eventually_mono; [|exact H4]. intros f E. unfold binary_read.
    destruct (Z.leb_spec left 0); [lia|]. fold n'. rewrite E. cbn. now rewrite Z.sub_0_r.
Qed.

Lemma close_tracks : forall m r t left, rd_open r = true -> tracks m r t -> (0 <= left)%Z ->
  exists r' k m', tracks m' r' (after k t) /\ k <= Z.to_nat left /\ (length (contents t) <= k \/ k = Z.to_nat left) /\ same_cfg r r' /\
    eventually (fun f => binary_close act f left r = Some (ROk None, r')).
Proof.
  induction m as [m IH] using lt_wf_ind. intros r t left Hop Hf Hl.
  destruct (Z.eqb_spec left 0) as [->|Hne].
  - exists r, 0, m. rewrite after_0. split; [exact Hf|]. split; [lia|]. split; [now right|]. split; [apply same_cfg_refl|].
    apply eventually_S, eventually_all. intros f. reflexivity.
  - destruct (binary_tracks discard_buf m r t left) as [(d & r' & m' & H1 & H2 & H3 & H4 & H5 & H6 & H7)|(E & r' & m' & H1 & H2 & H3)];
      [unfold discard_buf; lia|exact Hop|exact Hf|lia|..].
    + destruct (IH m' H4 r' (after (length d) t) (left - Z.of_nat (length d))%Z) as (r2 & k & m2 & K1 & K2 & K3 & K4 & K5).
      { destruct H7 as (_ & _ & -> & _). exact Hop. } { exact H3. } { lia. }
      exists r2, (length d + k), m2. rewrite after_after in K1. split; [exact K1|]. split; [lia|].
      split. { rewrite H2, app_length. destruct K3 as [K3|K3]; [left|right]; lia. }
      split; [eapply same_cfg_trans; eassumption|].
      apply eventually_S. eapply eventually_mono; [|exact (eventually_and _ _ H1 K5)]. intros f [E1 E2].
      cbn [binary_close]. rewrite E1. exact E2.
    + exists r', (if match t with Zip _ _ => true | _ => false end then Z.to_nat left else 0), m'.
      split.
      { destruct t as [s|x rest]; cbn [contents] in E; [subst s; exact H1|]. apply app_eq_nil in E as [-> ->].
        cbn [after length]. destruct (Nat.leb_spec (Z.to_nat left) 0); [lia|]. now rewrite skipn_nil. }
      split; [destruct t; lia|]. split; [left; rewrite E; cbn; lia|]. split; [exact H2|].
      apply eventually_S. eapply eventually_mono; [|exact H3]. intros f E1. cbn [binary_close]. rewrite E1. reflexivity.
Qed.

(** EnableZlib. *)
Lemma zlib_carries m r z x rest : rd_open r = true -> carries m r (Plain (z ++ rest)) -> inflates act zinit z x ->
  exists r' m', carries m' r' (Zip x rest) /\ same_cfg r r' /\ eventually (fun f => enable_zlib act zinit f r = Some (ROk tt, r')).
Proof.
  intros Hop H Hi. destruct (inflates_zdec _ _ _ _ _ Hi) as [k Hk].
  remember (Plain (z ++ rest)) as t eqn:Et. destruct H as [r evs s0 Hz Hon Hc Hev Hs|]; [|discriminate]. injection Et as ->.
  destruct (zopen_ok act [] rest k zinit (rd_orig r) evs z x Hk Hev (eq_sym Hs)) as (z' & o' & evs' & k' & c' & K1 & K2 & K3 & K4).
  rewrite !app_nil_r in K1.
  eexists _, _. split; [|split]; [..|eapply eventually_mono; [|exact K1]; intros f E; unfold enable_zlib; rewrite Hop, Hon; cbn [with_mode rd_orig rd_conn]; rewrite Hc, E; reflexivity].
  - apply (K_z _ evs' k' c' x rest); cbn; auto.
  - repeat split.
Qed.

(** An open reader which tracks the stream. *)
Definition good (r : reader) (t : stream) : Prop := rd_open r = true /\ exists m, tracks m r t.

Lemma cfg_open r r' : same_cfg r r' -> rd_open r = true -> rd_open r' = true.
Proof. intros (_ & _ & -> & _). auto. Qed.

Lemma carries_conf m r t r2 : rd_zcur r2 = rd_zcur r -> rd_zlib_on r2 = rd_zlib_on r -> rd_conn r2 = rd_conn r ->
  rd_orig r2 = rd_orig r -> rd_z r2 = rd_z r -> rd_comp r2 = rd_comp r -> carries m r t -> carries m r2 t.
Proof.
  intros E1 E2 E3 E4 E5 E6 H. destruct H; [apply K_plain|eapply K_z]; try congruence; try eassumption; rewrite ?E4, ?E5, ?E6; eassumption.
Qed.

Theorem good_session : session act zinit good.
Proof.
  constructor.
  - intros r t l u w w' v [Hop [m Hf]] Hs Hl Hw Hv.
    destruct (tracks_line m r t [] l u Hf Hs Hl ltac:(cbn; tauto) Hw) as (m' & r' & H1 & H2 & H3).
    cbn [length] in H1. rewrite Nat.sub_0_r in H1. apply verdict_run in Hv.
    exists r'. split; [split; [exact (cfg_open _ _ H2 Hop)|eauto]|]. split; [exact H2|].
    destruct v as [| |e].
    + apply (rl_read_line act w r _ Hop). apply H3. now rewrite Hv.
    + intros out Ho. apply (rl_read_line act w r _ Hop). apply H3. rewrite Hv.
      eapply eventually_mono; [|exact Ho]. intros f E. unfold read_line in E. now rewrite (cfg_open _ _ H2 Hop) in E.
    + apply (rl_read_line act w r _ Hop). apply H3. now rewrite Hv.
  - intros r t w [Hop [m Hf]] Hn Hw.
    destruct (tracks_rest m r t [] Hf Hn Hw) as (r1 & H1 & H2 & H3).
    assert (Ho : over r1 (contents t) = false).
    { rewrite (over_cfg r r1 _ H2). apply (over_false r (contents t) _ Hw). lia. }
    destruct (drained_eof act r1 w (contents t) H1 Ho) as (r2 & K1 & K2 & K3).
    pose proof (same_cfg_trans _ _ _ _ _ H2 K2) as C.
    exists r2. split; [split; [exact (cfg_open _ _ C Hop)|exists 0; left; now apply drained_carries]|]. split; [exact C|].
    apply (rl_read_line act w r _ Hop). now apply H3.
  - intros r t n [Hop [m Hf]] Hn.
    destruct (read_tracks n m r t Hn Hop Hf) as [(d & r' & m' & H1 & H2 & H3 & H4 & H5 & H6)|(H1 & r' & m' & H2 & H3 & H4)].
    + left. exists d, (contents (after (length d) t)), r'. split; [exact H2|]. split; [exact H5|].
      split; [split; [exact (cfg_open _ _ H6 Hop)|eauto]|]. split; [exact H6|exact H1].
    + right. split; [exact H1|]. exists r'. split; [split; [exact (cfg_open _ _ H3 Hop)|eauto]|]. split; [exact H3|exact H4].
  - intros r t sz [Hop _] Hsz. unfold binary. rewrite Hop. destruct (N.ltb_spec sz (2 ^ 63)%N); [reflexivity|lia].
  - intros r t n left [Hop [m Hf]] Hn Hl.
    destruct (binary_tracks n m r t left Hn Hop Hf Hl) as [(d & r' & m' & H1 & H2 & H3 & H4 & H5 & H6 & H7)|(H1 & r' & m' & H2 & H3 & H4)].
    + left. exists d, (contents (after (length d) t)), r'. split; [exact H2|]. split; [exact H5|]. split; [exact H6|].
      split; [split; [exact (cfg_open _ _ H7 Hop)|eauto]|]. split; [exact H7|exact H1].
    + right. split; [exact H1|]. exists r'. split; [split; [exact (cfg_open _ _ H3 Hop)|eauto]|]. split; [exact H3|exact H4].
  - intros r t n f _. reflexivity.
  - intros r t left [Hop [m Hf]] Hl.
    destruct (close_tracks m r t left Hop Hf Hl) as (r' & k & m' & H1 & H2 & H3 & H4 & H5).
    exists r', k. split; [split; [exact (cfg_open _ _ H4 Hop)|eauto]|]. auto.
  - intros r z x rest [Hop [m [Hf|(? & E & _)]]] Hi; [|discriminate].
    destruct (zlib_carries m r z x rest Hop Hf Hi) as (r' & m' & H1 & H2 & H3).
    exists r'. split; [split; [exact (cfg_open _ _ H2 Hop)|exists m'; now left]|]. auto.
  - intros r x rest f [Hop [m [Hf|(? & [= E] & _)]]] Hx; [|congruence].
    unfold enable_zlib. rewrite Hop.
    remember (Zip x rest) as t eqn:Et. destruct Hf as [|r evs k c x0 rest0 s Hz Hon]; [discriminate|]. now rewrite Hon.
  - intros r t z [Hop [m Hf]]. split; [exact Hop|]. exists m.
    destruct Hf as [Hf|(rest & -> & Hf)]; [left|right; exists rest; split; [reflexivity|]]; revert Hf; now apply carries_conf.
  - intros r t h [Hop [m Hf]]. split; [exact Hop|]. exists m.
    destruct Hf as [Hf|(rest & -> & Hf)]; [left|right; exists rest; split; [reflexivity|]]; revert Hf; now apply carries_conf.
Qed.

Theorem limited_serves limit hs c delim : Forall solid c ->
  serves act zinit (limited limit hs c delim : reader) (Plain (script_data c)).
Proof.
  intros Hc. exists good. split; [exact good_session|].
  destruct (limited_fields (W:=W) (zstate:=zstate) limit hs c delim) as (E1 & E2 & E3 & E4 & E5 & E6 & E7 & E8).
  split; [exact E3|]. eexists. left. apply (K_plain _ c); auto. now rewrite E5.
Qed.

(** Serving is itself a session. *)
Theorem serves_session : session act zinit (serves (W:=W) act zinit).
Proof.
  constructor.
  - intros r t l u w w' v (I & S & H) Hs Hl Hw Hv. destruct (se_line _ _ _ S r t l u w w' v H Hs Hl Hw Hv) as (r' & K1 & K2). exists r'. split; [now exists I|exact K2].
  - intros r t w (I & S & H) Hn Hw. destruct (se_rest _ _ _ S r t w H Hn Hw) as (r' & K1 & K2). exists r'. split; [now exists I|exact K2].
  - intros r t n (I & S & H) Hn. destruct (se_read _ _ _ S r t n H Hn) as [(d & u & r' & K1 & K2 & K3 & K4)|(E & r' & K1 & K2)];
      [left; exists d, u, r'; repeat (split; [first [assumption|now exists I]|])|right; split; [exact E|]; exists r'; split; [now exists I|]]; assumption.
  - intros r t sz (I & S & H). exact (se_binary _ _ _ S r t sz H).
  - intros r t n left (I & S & H) Hn Hl. destruct (se_binary_read _ _ _ S r t n left H Hn Hl) as [(d & u & r' & K1 & K2 & K3 & K4 & K5)|(E & r' & K1 & K2)];
      [left; exists d, u, r'; repeat (split; [first [assumption|now exists I]|])|right; split; [exact E|]; exists r'; split; [now exists I|]]; assumption.
  - intros r t n f (I & S & H). exact (se_binary_end _ _ _ S r t n f H).
  - intros r t left (I & S & H) Hl. destruct (se_close _ _ _ S r t left H Hl) as (r' & k & K1 & K2). exists r', k. split; [now exists I|exact K2].
  - intros r z x rest (I & S & H) Hi. destruct (se_zlib _ _ _ S r z x rest H Hi) as (r' & K1 & K2). exists r'. split; [now exists I|exact K2].
  - intros r x rest f (I & S & H). exact (se_zlib_twice _ _ _ S r x rest f H).
  - intros r t z (I & S & H). exists I. split; [exact S|]. exact (se_max _ _ _ S r t z H).
  - intros r t h (I & S & H). exists I. split; [exact S|]. exact (se_hook _ _ _ S r t h H).
Qed.
End Session.
