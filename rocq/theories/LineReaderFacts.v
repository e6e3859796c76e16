(** Lemmas about the line reader model. *)
From Verif Require Import Base BaseFacts LineReader SpecLine.

Lemma script_data_app a b : script_data (a ++ b) = script_data a ++ script_data b.
Proof. apply flat_map_app. Qed.

(** Events allowed in front of the end of the script: errors accompanying data allowed
    ([Lax]), no errors ([Strict]), no errors and no empty reads ([Solid]). *)
Inductive level := Lax | Strict | Solid.
Definition okev (lv : level) (ev : read_event) : Prop :=
  match ev with RD d e =>
    match lv with
    | Lax => d <> [] \/ e = None
    | Strict => e = None
    | Solid => d <> [] /\ e = None
    end
  end.

Lemma okev_split st n d e : okev st (RD d e) -> n < length d -> okev st (RD (skipn n d) e).
Proof.
  intros H Hn. assert (Hd : skipn n d <> []).
  { intros E. apply (f_equal (@length byte)) in E. rewrite skipn_length in E. cbn in E. lia. }
  destruct st; cbn in *; intuition.
Qed.

Lemma solid_split n d e : solid (RD d e) -> n < length d -> solid (RD (skipn n d) e).
Proof.
  intros [H1 ->] Hn. split; [|reflexivity].
  intros H. apply (f_equal (@length byte)) in H. rewrite skipn_length in H. cbn in H. lia.
Qed.

Lemma firstn_length_lt {A} n (l : list A) : n < length l -> length (firstn n l) = n.
Proof. intros. rewrite firstn_length. lia. Qed.

Lemma firstn_nonnil {A} n (l : list A) : 0 < n -> l <> [] -> firstn n l <> [].
Proof. destruct n; [lia|]. destruct l; [congruence|discriminate]. Qed.

Lemma list_eq_nil_length {A} (l : list A) : length l = 0 -> l = [].
Proof. destruct l; [reflexivity|discriminate]. Qed.

Lemma app_split {A} (a b c d : list A) :
  a ++ b = c ++ d -> length c <= length a -> exists e, a = c ++ e /\ d = e ++ b.
Proof.
  intros H Hl. exists (skipn (length c) a).
  assert (Ha : a = c ++ skipn (length c) a).
  { rewrite <- (firstn_skipn (length c) a) at 1. f_equal.
    transitivity (firstn (length c) (a ++ b)).
    - rewrite firstn_app. replace (length c - length a) with 0 by lia. cbn. now rewrite app_nil_r.
    - rewrite H. apply firstn_app_exact. }
  split; [exact Ha|]. rewrite Ha, <- app_assoc in H. now apply app_inv_head in H.
Qed.

(** ** The connection *)

Lemma conn_read_bound n c d e c' : conn_read n c = (d, e, c') -> length d <= n.
Proof.
  destruct c as [|[d0 e0] t]; cbn.
  - intros [= <- _ _]. cbn. lia.
  - destruct (length d0 <=? n)%nat eqn:E; intros [= <- _ _].
    + now apply Nat.leb_le in E.
    + rewrite firstn_length. lia.
Qed.

Lemma conn_read_okev st n ev evs ce :
  0 < n -> Forall (okev st) (ev :: evs) ->
  exists d e evs', conn_read n ((ev :: evs) ++ ce) = (d, e, evs' ++ ce) /\
    script_data (ev :: evs) = d ++ script_data evs' /\ Forall (okev st) evs' /\
    (st <> Lax -> e = None) /\ (d = [] -> e = None) /\
    length evs' + length (script_data evs') < length (ev :: evs) + length (script_data (ev :: evs)) /\
    length evs' <= length (ev :: evs).
Proof.
  intros Hn H. inversion H as [|x l Hx Hl]; subst. destruct ev as [d e]. cbn [app conn_read].
  destruct (length d <=? n)%nat eqn:E.
  - exists d, e, evs. cbn [script_data flat_map]. rewrite !app_length. cbn [length].
    repeat split; auto; try (unfold script_data; lia).
    + destruct st; cbn in Hx; intuition.
    + intros ->. destruct st; cbn in Hx; intuition.
  - apply Nat.leb_gt in E. exists (firstn n d), None, (RD (skipn n d) e :: evs).
    cbn [script_data flat_map app]. rewrite app_assoc, firstn_skipn, !app_length, skipn_length. cbn [length].
    repeat split; auto; try lia.
    constructor; [now apply okev_split|exact Hl].
Qed.

Lemma peek_conn_bound c x c' : peek_conn c = (inr x, c') -> length x <= read_buf.
Proof.
  unfold peek_conn. destruct (conn_read read_buf c) as [[d e] c1] eqn:E.
  apply conn_read_bound in E. destruct d as [|b d]; [destruct e|]; intros H; inversion H; subst; assumption.
Qed.

(** ** The plain byte source of the inflater *)

Lemma solid_data_nonnil evs : Forall solid evs -> script_data evs = [] -> evs = [].
Proof.
  destruct evs as [|[d e] evs]; [reflexivity|]. intros H. inversion H as [|x l Hd Hl]; subst. destruct Hd as [Hd _].
  cbn. destruct d; [congruence|discriminate].
Qed.

Lemma orig_read_byte_ok o evs ce b t :
  Forall solid evs -> o ++ script_data evs = b :: t ->
  exists o' evs', orig_read_byte o (evs ++ ce) = (ROk b, o', evs' ++ ce) /\
    o' ++ script_data evs' = t /\ Forall solid evs' /\ length evs' <= length evs.
Proof.
  intros Hs H. destruct o as [|x o].
  - cbn [app] in H. destruct evs as [|[d e] evs]; [discriminate|].
    inversion Hs as [|? ? Hd0 Hl]; subst. pose proof Hd0 as [Hd ->]. cbn [orig_read_byte].
    unfold peek_conn. cbn [app conn_read].
    destruct (length d <=? read_buf)%nat eqn:E.
    + destruct d as [|y d]; [congruence|]. cbn in H. injection H as -> H.
      exists d, evs. cbn [length]. repeat split; auto.
    + apply Nat.leb_gt in E. destruct d as [|y d]; [congruence|].
      cbn in H. injection H as -> H.
      cbn [read_buf firstn]. 
      exists (firstn (read_buf - 1) d), (RD (skipn read_buf (b :: d)) None :: evs).
      split; [reflexivity|]. split.
      * rewrite <- H. cbn [script_data flat_map]. rewrite app_assoc. f_equal.
        change (skipn read_buf (b :: d)) with (skipn (read_buf - 1) d). apply firstn_skipn.
      * split; [|cbn; lia]. constructor; [|exact Hl]. now apply solid_split.
  - cbn in H. injection H as -> H. exists o, evs. cbn. auto.
Qed.

Lemma full_conn_pos m acc d e t : 0 < m ->
  full_conn m acc (RD d e :: t) =
  if (m <? length d)%nat then (inr (acc ++ firstn m d), RD (skipn m d) e :: t)
  else if (m =? length d)%nat then (inr (acc ++ d), t)
  else match e with
       | Some err => (inl err, t)
       | None => full_conn (m - length d) (acc ++ d) t
       end.
Proof. destruct m; [lia|reflexivity]. Qed.

Lemma full_conn_ok evs ce : forall m acc d t,
  Forall solid evs -> script_data evs = d ++ t -> length d = m ->
  exists evs', full_conn m acc (evs ++ ce) = (inr (acc ++ d), evs' ++ ce) /\
    script_data evs' = t /\ Forall solid evs' /\ length evs' <= length evs.
Proof.
  induction evs as [|[d0 e0] evs IH]; intros m acc d t Hs H Hm.
  - cbn in H. symmetry in H. apply app_eq_nil in H as [-> ->]. cbn in Hm. subst m.
    exists []. destruct ce; cbn; rewrite app_nil_r; auto.
  - inversion Hs as [|? ? Hd0 Hl]; subst. pose proof Hd0 as [Hn ->].
    destruct (Nat.eq_dec (length d) 0) as [Em|Em].
    + apply list_eq_nil_length in Em. subst d. exists (RD d0 None :: evs).
      cbn [app length full_conn]. rewrite app_nil_r. auto.
    + cbn [app]. rewrite full_conn_pos by lia. cbn [script_data flat_map] in H.
      destruct (length d <? length d0)%nat eqn:E1; [apply Nat.ltb_lt in E1|apply Nat.ltb_ge in E1].
      * exists (RD (skipn (length d) d0) None :: evs).
        destruct (app_split d0 (script_data evs) d t H) as (e & -> & ->); [lia|].
        rewrite firstn_app_exact, skipn_app_exact. split; [reflexivity|].
        split; [reflexivity|]. split; [|cbn; lia]. constructor; [|exact Hl].
        split; [|reflexivity]. intros ->. rewrite app_nil_r in E1. lia.
      * destruct (length d =? length d0)%nat eqn:E2; [apply Nat.eqb_eq in E2|apply Nat.eqb_neq in E2].
        -- destruct (app_split d0 (script_data evs) d t H) as (e & -> & ->); [lia|].
           rewrite app_length in E2. assert (e = []) as -> by (apply list_eq_nil_length; lia).
           rewrite app_nil_r. exists evs. cbn. auto.
        -- symmetry in H.
           destruct (app_split d t d0 (script_data evs) H) as (e & -> & H2); [lia|].
           rewrite app_length. replace (length d0 + length e - length d0) with (length e) by lia.
           destruct (IH (length e) (acc ++ d0) e t Hl H2 eq_refl) as (evs' & -> & H3 & H4 & H5).
           exists evs'. rewrite <- app_assoc. cbn [length]. auto.
Qed.

Lemma orig_read_full_ok o evs ce d t :
  Forall solid evs -> o ++ script_data evs = d ++ t ->
  exists o' evs', orig_read_full (length d) o (evs ++ ce) = (inr d, o', evs' ++ ce) /\
    o' ++ script_data evs' = t /\ Forall solid evs' /\ length evs' <= length evs.
Proof.
  intros Hs H. unfold orig_read_full.
  destruct (length d <=? length o)%nat eqn:E; [apply Nat.leb_le in E|apply Nat.leb_gt in E].
  - destruct (app_split o (script_data evs) d t H) as (e & -> & ->); [lia|].
    rewrite firstn_app_exact, skipn_app_exact. exists e, evs. auto.
  - symmetry in H. destruct (app_split d t o (script_data evs) H) as (e & -> & H2); [lia|].
    rewrite app_length. replace (length o + length e - length o) with (length e) by lia.
    destruct (full_conn_ok evs ce (length e) o e t Hs H2 eq_refl) as (evs' & -> & H3 & H4 & H5).
    exists [], evs'. auto.
Qed.

Section Facts.
Variables (W zstate : Type) (act : zstate -> zaction zstate).
Notation reader := (reader W zstate).
Notation zread := (zread act).
Notation scan := (scan act).
Notation read_loop := (read_loop act).

(** ** The inflater *)

Inductive zdec : nat -> zstate + error -> bytes -> bytes -> Prop :=
| zd_eof : zdec 0 (inr EEOF) [] []
| zd_byte n z k b c x : act z = ZByte k -> zdec n (inl (k b)) c x -> zdec (S n) (inl z) (b :: c) x
| zd_full n z k d c x : act z = ZFull (length d) k -> zdec n (inl (k d)) c x -> zdec (S n) (inl z) (d ++ c) x
| zd_ready n z z' c x : act z = ZReady z' -> zdec n (inl z') c x -> zdec (S n) (inl z) c x
| zd_give n z d z' c x : act z = ZGive d z' -> zdec n (inl z') c x -> zdec (S n) (inl z) c (d ++ x)
| zd_last z d : act z = ZLast d -> zdec 1 (inl z) [] d.

Lemma inflates_zdec z c x : inflates act z c x -> exists n, zdec n (inl z) c x.
Proof.
  induction 1 as [z k b c x Ha _ [n IH]|z m k d c x Ha Hd _ [n IH]|z z' c x Ha _ [n IH]|z d z' c x Ha _ [n IH]|z d Ha].
  - exists (S n). eapply zd_byte; eassumption.
  - subst m. exists (S n). eapply zd_full; eassumption.
  - exists (S n). eapply zd_ready; eassumption.
  - exists (S n). eapply zd_give; eassumption.
  - exists 1. now apply zd_last.
Qed.

(** One Read of the zlib reader in a good state. *)
Lemma zread_ok n (Hn : 0 < n) ce rest : forall k pend st o evs c x,
  zdec k st c x -> Forall solid evs -> o ++ script_data evs = c ++ rest ->
  exists d e pend' st' o' evs' k' c' x',
    (forall f, k <= f ->
       zread f n (mkZ pend st) o (evs ++ ce) = Some (ROk (d, e), mkZ pend' st', o', evs' ++ ce)) /\
    zdec k' st' c' x' /\ Forall solid evs' /\ o' ++ script_data evs' = c' ++ rest /\
    pend ++ x = d ++ pend' ++ x' /\ length d <= n /\ length evs' <= length evs /\ k' <= k /\
    (e = None /\ (d <> [] \/ k' < k) \/
     e = Some EEOF /\ st' = inr EEOF /\ c' = [] /\ x' = [] /\ pend' = []).
Proof.
  induction k as [k IH] using lt_wf_ind. intros pend st o evs c x Hz Hs Ho.
  destruct pend as [|p0 pend].
  2:{ destruct (n <? length (p0 :: pend))%nat eqn:E; [apply Nat.ltb_lt in E|apply Nat.ltb_ge in E].
      - exists (firstn n (p0 :: pend)), None, (skipn n (p0 :: pend)), st, o, evs, k, c, x.
        split. { intros f _. destruct f; cbn [LineReader.zread z_pend z_st]; rewrite (proj2 (Nat.ltb_lt _ _) E); reflexivity. }
        split; [exact Hz|]. split; [exact Hs|]. split; [exact Ho|].
        split; [now rewrite app_assoc, firstn_skipn|].
        split; [rewrite firstn_length; lia|]. split; [lia|]. split; [lia|]. left. split; [reflexivity|].
        left. apply firstn_nonnil; [lia|discriminate].
      - exists (p0 :: pend), None, [], st, o, evs, k, c, x.
        split. { intros f _. destruct f; cbn [LineReader.zread z_pend z_st]; rewrite (proj2 (Nat.ltb_ge _ _) E); reflexivity. }
        split; [exact Hz|]. split; [exact Hs|]. split; [exact Ho|]. split; [reflexivity|].
        split; [lia|]. split; [lia|]. split; [lia|]. left. split; [reflexivity|left; discriminate]. }
  inversion Hz as [|k0 z K b c0 x0 Ha Hz'|k0 z K d c0 x0 Ha Hz'|k0 z z' c0 x0 Ha Hz'|k0 z d z' c0 x0 Ha Hz'|z d Ha]; subst.
  - exists [], (Some EEOF), [], (inr EEOF), o, evs, 0, [], [].
    split. { intros f _. destruct f; reflexivity. }
    split; [constructor|]. split; [exact Hs|]. split; [exact Ho|]. split; [reflexivity|].
    split; [cbn; lia|]. split; [lia|]. split; [lia|]. right. auto.
  - cbn [app] in Ho. destruct (orig_read_byte_ok o evs ce b (c0 ++ rest) Hs Ho) as (o1 & evs1 & H1 & H2 & H3 & H4).
    destruct (IH k0 ltac:(lia) [] _ o1 evs1 c0 x Hz' H3 H2) as (d & e & pend' & st' & o' & evs' & k' & c' & x' & R1 & R2 & R3 & R4 & R5 & R6 & R7 & R8 & R9).
    exists d, e, pend', st', o', evs', k', c', x'.
    split. { intros f Hf. destruct f; [lia|]. cbn [LineReader.zread z_pend z_st]. rewrite Ha, H1. apply R1. lia. }
    repeat (split; [first [assumption|lia]|]). destruct R9 as [[R9 R10]|R9]; [left; split; [exact R9|destruct R10; [now left|right; lia]]|now right].
  - rewrite <- app_assoc in Ho. destruct (orig_read_full_ok o evs ce d (c0 ++ rest) Hs Ho) as (o1 & evs1 & H1 & H2 & H3 & H4).
    destruct (IH k0 ltac:(lia) [] _ o1 evs1 c0 x Hz' H3 H2) as (d' & e & pend' & st' & o' & evs' & k' & c' & x' & R1 & R2 & R3 & R4 & R5 & R6 & R7 & R8 & R9).
    exists d', e, pend', st', o', evs', k', c', x'.
    split. { intros f Hf. destruct f; [lia|]. cbn [LineReader.zread z_pend z_st]. rewrite Ha, H1. apply R1. lia. }
    repeat (split; [first [assumption|lia]|]). destruct R9 as [[R9 R10]|R9]; [left; split; [exact R9|destruct R10; [now left|right; lia]]|now right].
  - destruct (IH k0 ltac:(lia) [] _ o evs c x Hz' Hs Ho) as (d' & e & pend' & st' & o' & evs' & k' & c' & x' & R1 & R2 & R3 & R4 & R5 & R6 & R7 & R8 & R9).
    exists d', e, pend', st', o', evs', k', c', x'.
    split. { intros f Hf. destruct f; [lia|]. cbn [LineReader.zread z_pend z_st]. rewrite Ha. apply R1. lia. }
    repeat (split; [first [assumption|lia]|]). destruct R9 as [[R9 R10]|R9]; [left; split; [exact R9|destruct R10; [now left|right; lia]]|now right].
  - destruct (n <? length d)%nat eqn:E; [apply Nat.ltb_lt in E|apply Nat.ltb_ge in E].
    + exists (firstn n d), None, (skipn n d), (inl z'), o, evs, k0, c, x0.
      split. { intros f Hf. destruct f; [lia|]. cbn [LineReader.zread z_pend z_st]. rewrite Ha, (proj2 (Nat.ltb_lt _ _) E). reflexivity. }
      split; [exact Hz'|]. split; [exact Hs|]. split; [exact Ho|].
      split; [cbn [app]; now rewrite app_assoc, firstn_skipn|].
      split; [rewrite firstn_length; lia|]. split; [lia|]. split; [lia|]. left. split; [reflexivity|right; lia].
    + exists d, None, [], (inl z'), o, evs, k0, c, x0.
      split. { intros f Hf. destruct f; [lia|]. cbn [LineReader.zread z_pend z_st]. rewrite Ha, (proj2 (Nat.ltb_ge _ _) E). reflexivity. }
      split; [exact Hz'|]. split; [exact Hs|]. split; [exact Ho|]. split; [reflexivity|].
      split; [lia|]. split; [lia|]. split; [lia|]. left. split; [reflexivity|right; lia].
  - destruct (n <? length x)%nat eqn:E; [apply Nat.ltb_lt in E|apply Nat.ltb_ge in E].
    + exists (firstn n x), None, (skipn n x), (inr EEOF), o, evs, 0, [], [].
      split. { intros f Hf. destruct f; [lia|]. cbn [LineReader.zread z_pend z_st]. rewrite Ha, (proj2 (Nat.ltb_lt _ _) E). reflexivity. }
      split; [constructor|]. split; [exact Hs|]. split; [exact Ho|].
      split; [cbn [app]; now rewrite app_nil_r, firstn_skipn|].
      split; [rewrite firstn_length; lia|]. split; [lia|]. split; [lia|]. left. split; [reflexivity|right; lia].
    + exists x, (Some EEOF), [], (inr EEOF), o, evs, 0, [], [].
      split. { intros f Hf. destruct f; [lia|]. cbn [LineReader.zread z_pend z_st]. rewrite Ha, (proj2 (Nat.ltb_ge _ _) E). reflexivity. }
      split; [constructor|]. split; [exact Hs|]. split; [exact Ho|].
      split; [cbn [app]; now rewrite app_nil_r|].
      split; [lia|]. split; [lia|]. split; [lia|]. right. auto.
Qed.

(** ** The stream a reader is going to deliver *)

Definition same_cfg (r r' : reader) : Prop :=
  rd_delim r' = rd_delim r /\ rd_max r' = rd_max r /\ rd_open r' = rd_open r /\ rd_hooks r' = rd_hooks r.

Lemma same_cfg_refl r : same_cfg r r.
Proof. repeat split. Qed.
Lemma same_cfg_trans a b c : same_cfg a b -> same_cfg b c -> same_cfg a c.
Proof.
  intros (A1 & A2 & A3 & A4) (B1 & B2 & B3 & B4).
  split; [exact (eq_trans B1 A1)|]. split; [exact (eq_trans B2 A2)|].
  split; [exact (eq_trans B3 A3)|exact (eq_trans B4 A4)].
Qed.

Inductive feeds (st : level) (ce : script) : nat -> reader -> bytes -> Prop :=
| F_plain r evs s :
    rd_zcur r = false -> rd_zlib_on r = false -> rd_conn r = evs ++ ce -> Forall (okev st) evs ->
    s = rd_orig r ++ script_data evs ->
    feeds st ce (length evs + length s) r s
| F_z r evs k c x rest s :
    rd_zcur r = true -> rd_zlib_on r = true -> rd_conn r = evs ++ ce -> Forall solid evs ->
    zdec k (z_st (rd_z r)) c x -> rd_orig r ++ script_data evs = c ++ rest ->
    s = rd_comp r ++ z_pend (rd_z r) ++ x ++ rest ->
    feeds st ce (1 + k + length evs + length s) r s.

Definition drained (ce : script) (r : reader) : Prop :=
  rd_zcur r = false /\ rd_zlib_on r = false /\ rd_conn r = ce /\ rd_orig r = [].

Definition bufs_ok (r : reader) : Prop := length (rd_orig r) <= read_buf /\ length (rd_comp r) <= read_buf.

Lemma solid_okev st evs : Forall solid evs -> Forall (okev st) evs.
Proof. apply Forall_impl. intros [d e] [Hd ->]. destruct st; cbn; auto. Qed.

Lemma scan_buf_ok delim b (r : reader) : b <> [] ->
  exists pref more rest r', scan_buf delim b r = (ROk (pref, more), r') /\
    b = pref ++ rest /\ pref <> [] /\ r' = set_cur_buf rest r /\
    (more = true /\ ~ In delim pref \/ more = false /\ is_line delim pref).
Proof.
  intros Hb. unfold scan_buf. destruct (index_byte delim b) as [i|] eqn:E.
  - apply index_byte_some in E as (a & t & -> & Hin & <-).
    replace (a ++ delim :: t) with ((a ++ [delim]) ++ t) by now rewrite <- app_assoc.
    replace (S (length a)) with (length (a ++ [delim])) by (rewrite app_length; cbn; lia).
    rewrite firstn_app_exact, skipn_app_exact.
    exists (a ++ [delim]), false, t, (set_cur_buf t r).
    split; [reflexivity|]. split; [reflexivity|]. split; [now destruct a|]. split; [reflexivity|].
    right. split; [reflexivity|]. now exists a.
  - apply index_byte_none in E. exists b, true, [], (set_cur_buf [] r).
    rewrite app_nil_r. auto 10.
Qed.

(** Buffers never exceed their capacity. *)
Lemma orig_read_byte_buf o c b o' c' : orig_read_byte o c = (b, o', c') ->
  length o <= read_buf -> length o' <= read_buf.
Proof.
  unfold orig_read_byte. destruct o as [|x o].
  - destruct (peek_conn c) as [[e|[|x y]] c1] eqn:E; intros [= _ <- _] _; cbn; try (unfold read_buf; lia).
    apply peek_conn_bound in E. cbn in E. lia.
  - intros [= _ <- _]. cbn. lia.
Qed.

Lemma orig_read_full_buf m o c d o' c' : orig_read_full m o c = (d, o', c') ->
  length o <= read_buf -> length o' <= read_buf.
Proof.
  unfold orig_read_full. destruct (m <=? length o)%nat.
  - intros [= _ <- _]. rewrite skipn_length. lia.
  - destruct (full_conn _ _ _). intros [= _ <- _] _. cbn. lia.
Qed.

Lemma zread_buf n : forall f z o c out z' o' c', zread f n z o c = Some (out, z', o', c') ->
  length o <= read_buf -> length o' <= read_buf.
Proof.
  induction f as [|f IH]; intros z o c out z' o' c'; cbn [LineReader.zread].
  - destruct (z_pend z) as [|p ps] eqn:Ep; [destruct (z_st z)|destruct (n <? _)%nat];
      intros H; inversion H; subst; auto.
  - destruct (z_pend z) as [|p ps] eqn:Ep; [|destruct (n <? _)%nat; intros H; inversion H; subst; auto].
    destruct (z_st z) as [st|e]; [|intros H; inversion H; subst; auto].
    destruct (act st) as [k|m k|st'|d st'|d|e].
    + destruct (orig_read_byte o c) as [[[b|e|] o1] c1] eqn:E; intros H Ho;
        apply orig_read_byte_buf in E; auto; [eauto|inversion H; subst; auto..].
    + destruct (orig_read_full m o c) as [[[e|b] o1] c1] eqn:E; intros H Ho;
        apply orig_read_full_buf in E; auto; [inversion H; subst; auto|eauto].
    + apply IH.
    + destruct (n <? _)%nat; intros H; inversion H; subst; auto.
    + destruct (n <? _)%nat; intros H; inversion H; subst; auto.
    + intros H; inversion H; subst; auto.
Qed.

Lemma under_read_buf f n r out r' : under_read act f n r = Some (out, r') -> bufs_ok r -> bufs_ok r'.
Proof.
  unfold under_read, bufs_ok. destruct (rd_zcur r).
  - destruct (zread f n (rd_z r) (rd_orig r) (rd_conn r)) as [[[[o z] o'] c']|] eqn:E; [|discriminate].
    intros [= _ <-] [H1 H2]. apply zread_buf in E; auto.
  - destruct (conn_read n (rd_conn r)) as [[d e] c']. intros [= _ <-]. cbn. auto.
Qed.

(** One Scan. *)
Lemma scan_ok st ce m r s : feeds st ce m r s ->
  (exists pref more r' m' s',
     eventually (fun f => scan f r = Some (ROk (pref, more), r')) /\
     s = pref ++ s' /\ feeds st ce m' r' s' /\ m' < m /\ same_cfg r r' /\
     (bufs_ok r -> bufs_ok r' /\ length pref <= read_buf) /\
     (more = true /\ ~ In (rd_delim r) pref \/ more = false /\ is_line (rd_delim r) pref)) \/
  (exists r' m',
     eventually (fun f => scan f r = Some (RErr EEOF, r')) /\ rd_zlib_on r' = true /\
     feeds st ce m' (with_mode false false r') s /\ m' < m /\ same_cfg r r' /\
     (bufs_ok r -> bufs_ok r')) \/
  (s = [] /\ drained ce r).
Proof.
  intros H. destruct H as [r evs s Hz Hon Hc Hev Hs|r evs k c x rest s Hz Hon Hc Hev Hd Ho Hs].
  - destruct (rd_orig r) as [|b0 o] eqn:Eo.
    + destruct evs as [|ev evs].
      { right. right. cbn in Hs. split; [exact Hs|]. repeat split; auto. }
      left. cbn [app] in Hs. subst s.
      destruct (conn_read_okev st read_buf ev evs ce) as (d & e & evs' & H1 & H2 & H3 & H4 & H5 & H6 & H7); [unfold read_buf; lia|exact Hev|].
      cbn [app] in H1. rewrite H2. destruct d as [|b1 d1].
      * rewrite (H5 eq_refl) in *. cbn [app] in *.
        exists [], true, (set_cur_buf [] (with_plain (evs' ++ ce) [] r)), (length evs' + length (script_data evs')), (script_data evs').
        split. { exists 0. intros f _. unfold scan, cur_buf. rewrite Hz, Eo. unfold under_read. rewrite Hz, Hc. cbn [app]. rewrite H1. cbn. now rewrite Eo. }
        split; [reflexivity|].
        unfold set_cur_buf. cbn [with_plain rd_zcur]. rewrite Hz.
        split; [apply F_plain; cbn; auto|]. split; [rewrite H2 in H6; exact H6|]. split; [repeat split|].
        split. { intros [Hb1 Hb2]. repeat split; cbn; unfold read_buf in *; lia. }
        left. auto.
      * destruct (scan_buf_ok (rd_delim r) (b1 :: d1) (with_plain (evs' ++ ce) [] r)) as (pref & more & rest & r' & G1 & G2 & G3 & G4 & G5); [discriminate|].
        exists pref, more, r', (length evs' + length (rest ++ script_data evs')), (rest ++ script_data evs').
        split. { exists 0. intros f _. unfold scan, cur_buf. rewrite Hz, Eo. unfold under_read. rewrite Hz, Hc. cbn [app]. rewrite H1. cbn. rewrite Eo, G1. destruct e; reflexivity. }
        split; [rewrite app_assoc, <- G2; reflexivity|].
        assert (Hl : length (b1 :: d1) <= read_buf) by (apply conn_read_bound in H1; exact H1).
        assert (Hr' : r' = with_plain (evs' ++ ce) rest r).
        { rewrite G4. unfold set_cur_buf. cbn [with_plain rd_zcur]. rewrite Hz. reflexivity. }
        rewrite Hr'. rewrite G2, app_length in Hl.
        split; [apply F_plain; cbn; auto|].
        split. { rewrite G2, !app_length in *. destruct pref; [congruence|]. cbn [length] in *. lia. }
        split; [repeat split|]. split; [|exact G5].
        intros [Hb1 Hb2]. repeat split; cbn; lia.
    + left. destruct (scan_buf_ok (rd_delim r) (b0 :: o) r) as (pref & more & rest & r' & G1 & G2 & G3 & G4 & G5); [discriminate|].
      exists pref, more, r', (length evs + length (rest ++ script_data evs)), (rest ++ script_data evs).
      split. { exists 0. intros f _. unfold scan, cur_buf. rewrite Hz, Eo, G1. reflexivity. }
      split; [rewrite app_assoc, <- G2; exact Hs|].
      assert (Hr' : r' = with_plain (rd_conn r) rest r).
      { rewrite G4. unfold set_cur_buf. rewrite Hz. reflexivity. }
      rewrite Hr'. split; [apply F_plain; cbn; auto|].
      split. { rewrite Hs, G2, !app_length. destruct pref; [congruence|]. cbn [length]. lia. }
      split; [repeat split|]. split; [|exact G5].
      intros [Hb1 Hb2]. rewrite Eo, G2, app_length in Hb1. repeat split; cbn; lia.
  - destruct (rd_comp r) as [|b0 o] eqn:Eo.
    + destruct (zread_ok read_buf ltac:(unfold read_buf; lia) ce rest k (z_pend (rd_z r)) (z_st (rd_z r)) (rd_orig r) evs c x Hd Hev Ho)
        as (d & e & pend' & st' & o' & evs' & k' & c' & x' & R1 & R2 & R3 & R4 & R5 & R6 & R7 & R8 & R9).
      assert (Hev' : eventually (fun f => under_read act f read_buf r = Some (ROk (d, e), with_z (mkZ pend' st') (with_plain (evs' ++ ce) o' r)))).
      { exists k. intros f Hf. unfold under_read. rewrite Hz, Hc.
        destruct (rd_z r) as [pz sz]. cbn [z_pend z_st] in *. rewrite R1 by exact Hf. reflexivity. }
      destruct d as [|b1 d1].
      * destruct e as [err|].
        -- destruct R9 as [[R9 _]|(R9 & -> & -> & -> & ->)]; [discriminate|]. injection R9 as ->.
           right. left. exists (with_z (mkZ [] (inr EEOF)) (with_plain (evs' ++ ce) o' r)), (length evs' + length s).
           split. { destruct Hev' as [f0 Hf0]. exists f0. intros f Hf. unfold scan, cur_buf. rewrite Hz, Eo, (Hf0 f Hf). reflexivity. }
           split; [exact Hon|].
           assert (s = rest) as Hsr. { rewrite Hs. cbn [app]. rewrite app_assoc, R5. reflexivity. }
           split. { apply F_plain; cbn; auto; [now apply solid_okev|]. cbn in R4. congruence. }
           split; [lia|]. split; [repeat split|].
           destruct Hev' as [f0 Hf0]. exact (under_read_buf _ _ _ _ _ (Hf0 f0 (le_n _))).
        -- destruct R9 as [[_ [R9|R9]]|[R9 _]]; try congruence.
           left. cbn [app] in *.
           exists [], true, (set_cur_buf [] (with_z (mkZ pend' st') (with_plain (evs' ++ ce) o' r))), (1 + k' + length evs' + length s), s.
           split. { destruct Hev' as [f0 Hf0]. exists f0. intros f Hf. unfold scan, cur_buf. rewrite Hz, Eo, (Hf0 f Hf). reflexivity. }
           split; [reflexivity|].
           unfold set_cur_buf. cbn [with_plain with_z rd_zcur]. rewrite Hz.
           split. { apply (F_z st ce _ evs' k' c' x' rest); cbn; auto. rewrite Hs, app_assoc, R5, <- app_assoc. reflexivity. }
           split; [lia|]. split; [repeat split|].
           split. { intros Hb. destruct Hev' as [f0 Hf0]. apply (under_read_buf _ _ _ _ _ (Hf0 f0 (le_n _))) in Hb.
                    destruct Hb. repeat split; cbn in *; auto; unfold read_buf; lia. }
           left. auto.
      * left.
        destruct (scan_buf_ok (rd_delim r) (b1 :: d1) (with_z (mkZ pend' st') (with_plain (evs' ++ ce) o' r))) as (pref & more & rest0 & r' & G1 & G2 & G3 & G4 & G5); [discriminate|].
        assert (Hr' : r' = with_comp rest0 (with_z (mkZ pend' st') (with_plain (evs' ++ ce) o' r))).
        { rewrite G4. unfold set_cur_buf. cbn [with_plain with_z rd_zcur]. rewrite Hz. reflexivity. }
        exists pref, more, r', (1 + k' + length evs' + length (rest0 ++ pend' ++ x' ++ rest)), (rest0 ++ pend' ++ x' ++ rest).
        split. { destruct Hev' as [f0 Hf0]. exists f0. intros f Hf. unfold scan, cur_buf. rewrite Hz, Eo, (Hf0 f Hf), G1. destruct e; reflexivity. }
        assert (Hss : s = pref ++ rest0 ++ pend' ++ x' ++ rest).
        { rewrite Hs. cbn [app]. rewrite app_assoc, R5, G2, <- !app_assoc. reflexivity. }
        split; [exact Hss|]. rewrite Hr'.
        split; [apply (F_z st ce _ evs' k' c' x' rest); cbn; auto|].
        split. { rewrite Hss, (app_length pref). destruct pref; [congruence|]. cbn [length]. lia. }
        split; [repeat split|]. split; [|exact G5].
        intros Hb. destruct Hev' as [f0 Hf0]. apply (under_read_buf _ _ _ _ _ (Hf0 f0 (le_n _))) in Hb.
        rewrite G2, app_length in R6. destruct Hb. repeat split; cbn in *; auto; lia.
    + left. destruct (scan_buf_ok (rd_delim r) (b0 :: o) r) as (pref & more & rest0 & r' & G1 & G2 & G3 & G4 & G5); [discriminate|].
      assert (Hr' : r' = with_comp rest0 r).
      { rewrite G4. unfold set_cur_buf. rewrite Hz. reflexivity. }
      exists pref, more, r', (1 + k + length evs + length (rest0 ++ z_pend (rd_z r) ++ x ++ rest)), (rest0 ++ z_pend (rd_z r) ++ x ++ rest).
      split. { exists 0. intros f _. unfold scan, cur_buf. rewrite Hz, Eo, G1. reflexivity. }
      assert (Hss : s = pref ++ rest0 ++ z_pend (rd_z r) ++ x ++ rest).
      { rewrite Hs, G2, <- app_assoc. reflexivity. }
      split; [exact Hss|]. rewrite Hr'.
      split; [apply (F_z st ce _ evs k c x rest); cbn; auto|].
      split. { rewrite Hss, (app_length pref). destruct pref; [congruence|]. cbn [length]. lia. }
      split; [repeat split|]. split; [|exact G5].
      intros [Hb1 Hb2]. rewrite Eo, G2, app_length in Hb2. repeat split; cbn; lia.
Qed.
End Facts.
Arguments feeds {W zstate}. Arguments drained {W zstate}. Arguments bufs_ok {W zstate}.
Arguments same_cfg {W zstate}. Arguments zdec {zstate}.
