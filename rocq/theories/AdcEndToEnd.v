(** Lemmas about the ADC packet reader and writer, and the way from one to the other. *)
From Verif Require Import Base BaseFacts LineReader SpecLine LineReaderFacts LineReaderStream LineReaderOps
  LineWriter SpecWriter LineWriterFacts LineWriterOps LineWriterFinal LineTransport NmdcReaderFacts SpecNmdcWriter NmdcWriterFacts NmdcEndToEnd.
From Verif Require Import AdcValue AdcMessage AdcPacket SpecAdc SpecAdcMessage AdcPacketFacts AdcReader AdcWriter SpecAdcReader.

(** ** Reading *)
Section Reading.
Context {W zstate : Type} (act : zstate -> zaction zstate) (pf : bytes -> float_result).
Notation reader := (reader W zstate).
Notation is_nl := (is_line x0a).

Lemma nl_ends l : is_nl l -> ends_line l = true.
Proof. intros (q & -> & _). apply ends_line_snoc. Qed.
Lemma nl_keep l : is_nl l -> keep_alive_line l = negb (1 <? length l)%nat.
Proof. intros (q & -> & _). destruct q as [|a [|b q]]; reflexivity. Qed.

Fixpoint skim (keep : option (W -> W * option error)) (ls : list bytes) (w : W) : res bytes * W * list bytes :=
  match ls with
  | [] => (Err EEOF, w, [])
  | l :: r => if keep_alive_line l then
                match keep with
                | None => skim keep r w
                | Some k => match k w with (w2, Some e) => (Err e, w2, r) | (w2, None) => skim keep r w2 end
                end
              else (Ok l, w, r)
  end.

Lemma supplies_next keep : forall ls w r, supplies act r ls -> Forall is_nl ls ->
  exists r' f0, supplies act r' (snd (skim keep ls w)) /\ Forall is_nl (snd (skim keep ls w)) /\
    forall f g, f0 <= f -> f0 <= g -> next_packet act f g keep w r = Some (fst (skim keep ls w), r').
Proof.
  induction ls as [|l ls IH]; intros w r H L.
  - destruct (supplies_end act r H) as (rest & r' & K1 & K2). destruct (K1 w) as [f0 Hf]. exists r', (S f0). split; [exact K2|]. split; [constructor|].
    intros f g L1 L2. destruct f as [|f]; [lia|]. cbn [next_packet skim fst]. now rewrite Hf by lia.
  - inversion H as [| |? ? r1 ? K1 K2]; subst. inversion L as [|? ? L1 L2]; subst. cbn [skim]. destruct (K1 w) as [f0 Hf].
    assert (G : forall f g, f0 <= g -> next_packet act (S f) g keep w r =
      if (1 <? length l)%nat then Some (Ok l, w, r1) else match keep with None => next_packet act f g keep w r1 | Some k => match k w with
        | (w2, Some e) => Some (Err e, w2, r1) | (w2, None) => next_packet act f g keep w2 r1 end end).
    { intros f g Hg. cbn [next_packet]. rewrite Hf by lia. now rewrite (nl_ends l L1). }
    rewrite (nl_keep l L1). destruct (1 <? length l)%nat eqn:E; cbn [negb].
    + exists r1, (S f0). split; [exact K2|]. split; [exact L2|]. intros f g M1 M2. destruct f as [|f]; [lia|]. rewrite G by lia. reflexivity.
    + destruct keep as [k|].
      * destruct (k w) as [w2 [e|]] eqn:Kw.
        -- exists r1, (S f0). split; [exact K2|]. split; [exact L2|]. intros f g M1 M2. destruct f as [|f]; [lia|]. rewrite G by lia. rewrite ?Kw. reflexivity.
        -- destruct (IH w2 r1 K2 L2) as (r' & f1 & J1 & J2 & J3). exists r', (S (Nat.max f0 f1)). split; [exact J1|]. split; [exact J2|].
           intros f g M1 M2. destruct f as [|f]; [lia|]. rewrite G by lia. rewrite ?Kw. apply J3; lia.
      * destruct (IH w r1 K2 L2) as (r' & f1 & J1 & J2 & J3). exists r', (S (Nat.max f0 f1)). split; [exact J1|]. split; [exact J2|].
        intros f g M1 M2. destruct f as [|f]; [lia|]. rewrite G by lia. apply J3; lia.
Qed.

(** The answer of any call to what readPacket says *)
Definition respond (c : rcall) (x : res bytes) : answer :=
  match c with
  | CPacket sp => APacket (bind x (decode_packet pf sp))
  | CRaw sp => APacket (bind x (decode_packet_raw sp))
  | CInfo sp => AMessage (bind x (fun l => do p <- decode_packet_raw sp l; info_message pf p))
  | CClient sp => AMessage (bind x (fun l => do p <- decode_packet_raw sp l; client_message pf p))
  end.
Lemma respond_call f c w (R : areader W zstate) x w1 r1 : next_packet act f f (ar_keep R) w (ar_line R) = Some (x, w1, r1) ->
  run_rcall act pf f c w R = Some (respond c x, w1, mkAreader r1 (ar_keep R)).
Proof.
  intros H. destruct c; cbn [run_rcall respond]; unfold read_packet, read_packet_raw, read_info, read_client, with_packet; rewrite H; reflexivity.
Qed.

Lemma calls_cons c cs w (R : areader W zstate) o w1 R1 os w2 R2 : eventually (fun f => run_rcall act pf f c w R = Some (o, w1, R1)) ->
  eventually (fun f => run_rcalls act pf f cs w1 R1 = Some (os, w2, R2)) -> eventually (fun f => run_rcalls act pf f (c :: cs) w R = Some (o :: os, w2, R2)).
Proof.
  intros H1 H2. eapply eventually_mono; [|exact (eventually_and _ _ H1 H2)]. intros f [E1 E2]. cbn [run_rcalls]. now rewrite E1, E2.
Qed.

Variables (keep : option (W -> W * option error)) (g : W -> W).
Hypothesis Hka : match keep with None => forall w, g w = w | Some k => forall w, k w = (g w, None) end.

Lemma skim_good : forall ls w, exists k, k <= keep_alive_lines ls /\
  match packet_lines ls with
  | [] => k = keep_alive_lines ls /\ skim keep ls w = (Err EEOF, Nat.iter k g w, [])
  | l :: ls2 => exists ls', skim keep ls w = (Ok l, Nat.iter k g w, ls') /\ packet_lines ls' = ls2 /\ keep_alive_lines ls = k + keep_alive_lines ls' /\
      (forall P : bytes -> Prop, Forall P ls -> Forall P ls')
  end.
Proof.
  unfold packet_lines, keep_alive_lines. induction ls as [|l ls IH]; intros w; [exists 0; cbn; auto|]. cbn [skim filter]. destruct (keep_alive_line l) eqn:E; cbn [negb].
  - assert (S : match keep with None => skim keep ls w | Some k => match k w with (w2, Some e) => (Err e, w2, ls) | (w2, None) => skim keep ls w2 end end = skim keep ls (g w)).
    { destruct keep as [k|]; rewrite Hka; reflexivity. }
    rewrite S. destruct (IH (g w)) as (k & Lk & H). exists (Datatypes.S k). cbn [length]. split; [lia|].
    assert (I : forall n, Nat.iter n g (g w) = g (Nat.iter n g w)) by (induction n as [|n IHn]; [reflexivity|]; change (g (Nat.iter n g (g w)) = g (g (Nat.iter n g w))); now rewrite IHn).
    rewrite I in H. destruct (filter (fun l => negb (keep_alive_line l)) ls).
    + destruct H as [-> H]. split; [reflexivity|]. exact H.
    + destruct H as (ls' & H1 & H2 & H3 & H4). exists ls'. split; [exact H1|]. split; [exact H2|]. split; [cbn; lia|]. intros P F. inversion F; subst; auto.
  - exists 0. split; [lia|]. exists ls. split; [reflexivity|]. split; [reflexivity|]. split; [reflexivity|]. intros P F. now inversion F.
Qed.

Theorem calls_answers : forall cs ls w r, supplies act r ls -> Forall is_nl ls ->
  exists w2 R2, eventually (fun f => run_rcalls act pf f cs w (mkAreader r keep) = Some (answers pf cs (packet_lines ls), w2, R2)) /\
    (length (packet_lines ls) < length cs -> w2 = Nat.iter (keep_alive_lines ls) g w).
Proof.
  induction cs as [|c cs IH]; intros ls w r H L.
  - exists w, (mkAreader r keep). split; [exists 0; destruct (packet_lines ls); reflexivity|cbn; lia].
  - destruct (supplies_next keep ls w r H L) as (r' & f0 & K1 & K2 & K3). destruct (skim_good ls w) as (k & Lk & G).
    destruct (packet_lines ls) as [|l ls2] eqn:E.
    + destruct G as [-> G]. rewrite G in *. cbn [fst snd] in *. destruct (IH [] (Nat.iter (keep_alive_lines ls) g w) r' K1 (Forall_nil _)) as (w2 & R2 & J1 & J2).
      exists w2, R2. cbn [answers]. split.
      * eapply calls_cons; [|exact J1]. exists f0. intros f Lf. rewrite (respond_call f c w (mkAreader r keep) _ _ _ (K3 f f Lf Lf)).
        cbn [ar_keep]. destruct c; reflexivity.
      * intros _. destruct cs as [|c2 cs]; [|apply J2; cbn; lia]. destruct J1 as [m J1]. specialize (J1 m (le_n m)). cbn in J1. now injection J1 as <- <-.
    + destruct G as (ls' & G & G2 & G3 & _). rewrite G in *. cbn [fst snd] in *. destruct (IH ls' (Nat.iter k g w) r' K1 K2) as (w2 & R2 & J1 & J2). rewrite G2 in *.
      exists w2, R2. cbn [answers]. split.
      * eapply calls_cons; [|exact J1]. exists f0. intros f Lf. rewrite (respond_call f c w (mkAreader r keep) _ _ _ (K3 f f Lf Lf)). cbn [ar_keep]. destruct c; reflexivity.
      * intros Q. cbn [length] in Q. rewrite J2 by lia. rewrite G3. apply iter_add.
Qed.

(** Reading exactly the lines of a part of the stream, the last of which is a packet *)
Lemma leads_next r' : forall ls w r, leads act r ls r' -> Forall is_nl ls -> packet_lines ls <> [] ->
  exists r1 f0, leads act r1 (snd (skim keep ls w)) r' /\
    forall f h, f0 <= f -> f0 <= h -> next_packet act f h keep w r = Some (fst (skim keep ls w), r1).
Proof.
  induction ls as [|l ls IH]; intros w r H L N; [now elim N|].
  inversion H as [|? ? r1 ? ? K1 K2]; subst. inversion L as [|? ? L1 L2]; subst. cbn [skim]. destruct (K1 w) as [f0 Hf].
  assert (G : forall f h, f0 <= h -> next_packet act (S f) h keep w r =
    if (1 <? length l)%nat then Some (Ok l, w, r1) else match keep with None => next_packet act f h keep w r1 | Some k => match k w with
      | (w2, Some e) => Some (Err e, w2, r1) | (w2, None) => next_packet act f h keep w2 r1 end end).
  { intros f h Hg. cbn [next_packet]. rewrite Hf by lia. now rewrite (nl_ends l L1). }
  unfold packet_lines in N. cbn [filter] in N. rewrite (nl_keep l L1) in *. destruct (1 <? length l)%nat eqn:E; cbn [negb] in *.
  - exists r1, (S f0). split; [exact K2|]. intros f h M1 M2. destruct f as [|f]; [lia|]. rewrite G by lia. reflexivity.
  - destruct keep as [k|].
    + rewrite Hka in *. destruct (IH (g w) r1 K2 L2 N) as (r2 & f1 & J1 & J3). exists r2, (S (Nat.max f0 f1)). split; [exact J1|].
      intros f h M1 M2. destruct f as [|f]; [lia|]. rewrite G by lia. rewrite ?Hka. apply J3; lia.
    + destruct (IH w r1 K2 L2 N) as (r2 & f1 & J1 & J3). exists r2, (S (Nat.max f0 f1)). split; [exact J1|].
      intros f h M1 M2. destruct f as [|f]; [lia|]. rewrite G by lia. apply J3; lia.
Qed.

Lemma packet_lines_app a b : packet_lines (a ++ b) = packet_lines a ++ packet_lines b.
Proof. unfold packet_lines. apply filter_app. Qed.
Lemma skim_last ls z w l w' ls' : keep_alive_line z = false -> skim keep (ls ++ [z]) w = (Ok l, w', ls') -> ls' = [] \/ exists ls2, ls' = ls2 ++ [z].
Proof.
  intros Z. revert w. induction ls as [|a ls IH]; intros w H; cbn [app skim] in H.
  - rewrite Z in H. injection H as _ _ <-. now left.
  - destruct (keep_alive_line a).
    + destruct keep as [k|]; [destruct (k w) as [w2 [e|]]; [discriminate|]|]; now apply IH in H.
    + injection H as _ _ <-. right. eauto.
Qed.

Theorem leads_answers r' : forall cs ls w r z, keep_alive_line z = false -> leads act r (ls ++ [z]) r' -> Forall is_nl (ls ++ [z]) -> length cs = length (packet_lines (ls ++ [z])) ->
  eventually (fun f => run_rcalls act pf f cs w (mkAreader r keep) =
    Some (answers pf cs (packet_lines (ls ++ [z])), Nat.iter (keep_alive_lines (ls ++ [z])) g w, mkAreader r' keep)).
Proof.
  induction cs as [|c cs IH]; intros ls w r z Z H L Q.
  - rewrite packet_lines_app in Q. unfold packet_lines in Q at 2. cbn [filter] in Q. rewrite Z in Q. rewrite app_length in Q. cbn in Q. lia.
  - assert (N : packet_lines (ls ++ [z]) <> []) by (destruct (packet_lines (ls ++ [z])); discriminate).
    destruct (leads_next r' (ls ++ [z]) w r H L N) as (r1 & f0 & K1 & K3). destruct (skim_good (ls ++ [z]) w) as (k & Lk & G).
    destruct (packet_lines (ls ++ [z])) as [|l ls2] eqn:E; [now elim N|]. destruct G as (ls' & G & G2 & G3 & G4). rewrite G in *. cbn [fst snd] in *.
    assert (R : eventually (fun f => run_rcall act pf f c w (mkAreader r keep) = Some (about pf c l, Nat.iter k g w, mkAreader r1 keep))).
    { exists f0. intros f Lf. rewrite (respond_call f c w (mkAreader r keep) _ _ _ (K3 f f Lf Lf)). cbn [ar_keep]. destruct c; reflexivity. }
    cbn [answers]. destruct (skim_last ls z w l _ ls' Z G) as [->|[ls3 ->]].
    + inversion K1; subst. cbn in G3. rewrite G3, Nat.add_0_r. cbn [packet_lines filter] in *. eapply calls_cons; [exact R|]. cbn in Q. destruct cs; [|discriminate]. exists 0. reflexivity.
    + rewrite G3, <- iter_add, <- G2. eapply calls_cons; [exact R|]. apply IH; [exact Z|exact K1|exact (G4 _ L)|]. rewrite G2. now injection Q.
Qed.
End Reading.

Lemma limited_supplies_nl {W zstate} (act : zstate -> zaction zstate) limit c ls rest : Forall SpecLine.quiet c -> script_data c = concat ls ++ rest ->
  Forall (is_line x0a) ls -> ~ In x0a rest -> Forall (fun l => within limit (length l)) ls -> within limit (S (length rest)) ->
  supplies act (limited (W:=W) (Z:=zstate) limit [] c x0a) ls.
Proof.
  intros Hq Hs Hl Hr Hw Hwr. destruct (limited_feeds act (W:=W) Lax limit [] c [] x0a (quiet_okev c Hq)) as [m Hm]. rewrite app_nil_r, Hs in Hm.
  destruct (limited_fields (W:=W) (zstate:=zstate) limit [] c x0a) as (H1 & H2 & H3 & _ & _ & _ & _ & H8).
  apply (feeds_supplies act Lax ls m _ rest Hm); rewrite ?H1, ?H2; auto.
Qed.

(** ** Lines *)
Lemma packet_is_line p : one_line p -> is_line x0a (marshal_packet p).
Proof. intros [Q P]. destruct (packet_line p Q P) as (q & E & N). exists q. auto. Qed.
Lemma packet_not_keep p : keep_alive_line (marshal_packet p) = false.
Proof. rewrite marshal_form. destruct (cmd (message p)), (header' p), (tail_of p); reflexivity. Qed.
Lemma items_are_lines its : Forall one_line (packets its) -> Forall (is_line x0a) (map item_line its).
Proof.
  induction its as [|[p|] its IH]; cbn [packets map item_line]; intros F; constructor.
  - inversion F; subst. now apply packet_is_line.
  - inversion F; subst. auto.
  - exists []. split; [reflexivity|easy].
  - auto.
Qed.
Lemma items_packet_lines its : packet_lines (map item_line its) = map marshal_packet (packets its).
Proof.
  unfold packet_lines. induction its as [|[p|] its IH]; cbn [packets map item_line filter]; [reflexivity| |].
  - rewrite packet_not_keep. cbn [negb]. now rewrite IH.
  - exact IH.
Qed.
Lemma items_keep_lines its : keep_alive_lines (map item_line its) = keep_alives its.
Proof.
  unfold keep_alive_lines. induction its as [|[p|] its IH]; cbn [keep_alives map item_line filter]; [reflexivity| |].
  - now rewrite packet_not_keep.
  - cbn. now rewrite IH.
Qed.
Lemma faithful_answers pf : forall sps ps, Forall faithful ps -> answers pf (map CRaw sps) (map marshal_packet ps) = packets_then_eof (length sps) ps.
Proof.
  intros sps ps F. assert (G : forall n ps, Forall faithful ps -> length sps <= n ->
    answers pf (map CRaw sps) (map marshal_packet ps) = firstn (length sps) (map (fun p => APacket (Ok p)) ps ++ repeat (APacket (Err EEOF)) n)).
  { clear. induction sps as [|sp sps IH]; intros n ps F L; [reflexivity|]. cbn [map length answers] in *. destruct ps as [|p ps]; cbn [map app].
    - destruct n as [|n]; [lia|]. cbn [repeat firstn]. f_equal. exact (IH n [] (Forall_nil _) ltac:(lia)).
    - inversion F as [|? ? (t & d & A1 & A2 & A3 & A4 & A5 & A6) F']; subst. cbn [firstn]. f_equal; [|apply IH; [assumption|lia]].
      cbn [about]. now rewrite (packet_roundtrip sp p t d). }
  apply G; auto.
Qed.

(** ** Writing *)
Section Writing.
Context {W dst : Type} (dinit : Z -> dst) (dstep : dst -> dop -> dst * list bytes).
Notation reached := (reached (W:=W) dinit dstep).

(** The line writer operation of a call *)
Definition op_of (o : aop) : wop :=
  match o with
  | APkt p => OLine (marshal_packet p)
  | AStream st m => OLine (marshal_packet (stream_packet st m))
  | AKeep => OLine [x0a]
  | AFlush => OFlush
  | AEnable lvl => OEnable lvl
  | ADisable => ODisable
  end.
Definition ops_of (h : list (aop * option error)) : list wop := map (fun r => op_of (fst r)) h.
Lemma ops_of_app a b : ops_of (a ++ b) = ops_of a ++ ops_of b. Proof. apply map_app. Qed.
Lemma ops_lines h : op_lines (ops_of h) = map item_line (aop_items h).
Proof.
  induction h as [|[[p|st m| | |lvl|] e] h IH]; [reflexivity|..]; cbn [ops_of map fst op_of op_lines flat_map app aop_items item_line]; try exact IH; f_equal; exact IH.
Qed.

Definition switch_ok (r : aop * option error) : Prop :=
  match r with (AEnable lvl, e) => (-2 <= lvl <= 9)%Z /\ e = None | (ADisable, e) => e = None | _ => True end.

Lemma run_aop_line (s : W) o (x : awriter W dst) e s' x' d : op_of o = OLine d -> run_aop dinit dstep s o x = WRet (e, s', x') ->
  write_line dstep s d (aw_line x) = WRet (e, s', aw_line x').
Proof.
  intros O H. assert (G : forall b, aw_write_line dstep s d (mkAwriter (aw_line x) b) = WRet (e, s', x') -> write_line dstep s d (aw_line x) = WRet (e, s', aw_line x')).
  { intros b K. unfold aw_write_line in K. cbn [aw_line aw_mbuf] in K. destruct (write_line dstep s d (aw_line x)) as [[[e1 s1] w1]| |]; try discriminate. now injection K as <- <- <-. }
  destruct o as [p|st m| | |lvl|]; cbn [op_of] in O; try discriminate; injection O as <-; cbn [run_aop] in H.
  - exact (G _ H).
  - destruct st; exact (G _ H).
  - destruct x as [w b]. exact (G b H).
Qed.

Lemma run_aop_lift (s : W) o (x : awriter W dst) e s' x' : (forall d, op_of o <> OLine d) -> run_aop dinit dstep s o x = WRet (e, s', x') ->
  s' = s /\ forall s0 : W, run_op dinit dstep s0 (op_of o) (aw_line x) = WRet (0, e, s0, aw_line x').
Proof.
  intros N H. destruct o as [p|st m| | |lvl|]; cbn [op_of] in N; try (now elim (N _ eq_refl)); cbn [run_aop op_of run_op] in *; unfold aw_flush in H.
  - destruct (flush dstep (aw_line x)) as [[e1 w1]| |]; try discriminate. injection H as <- <- <-. auto.
  - destruct (enable_zlib_level dinit dstep lvl (aw_line x)) as [[e1 w1]| |]; try discriminate. injection H as <- <- <-. auto.
  - destruct (disable_zlib dstep (aw_line x)) as [[e1 w1]| |]; try discriminate. injection H as <- <- <-. auto.
Qed.
Lemma op_line_dec o : (exists d, op_of o = OLine d) \/ forall d, op_of o <> OLine d.
Proof. destruct o; cbn; eauto; right; discriminate. Qed.

Lemma run_aop_err (s : W) o (x : awriter W dst) e s' x' : run_aop dinit dstep s o x = WRet (e, s', x') -> wr_err (aw_line x') = None -> wr_err (aw_line x) = None.
Proof.
  intros H. destruct (op_line_dec o) as [[d D]|N].
  - apply (run_aop_line s o x e s' x' d D) in H. exact (err_mono_line dinit dstep _ _ _ _ _ _ H).
  - destruct (run_aop_lift s o x e s' x' N H) as [_ R]. specialize (R s). exact (err_sticky dinit dstep _ _ _ _ _ _ _ R).
Qed.
Lemma aruns_err (s : W) (x : awriter W dst) h s' x' : aruns dinit dstep s x h s' x' -> wr_err (aw_line x') = None -> wr_err (aw_line x) = None.
Proof. induction 1; auto. intros He. eapply run_aop_err; eauto. Qed.

Theorem aruns_reached w0 s0 s (x : awriter W dst) h s' x' : aruns dinit dstep s x h s' x' -> forall ops,
  wr_err (aw_line x') = None -> Forall switch_ok h -> reached w0 s0 ops (aw_line x) ->
  s' = s /\ reached w0 s0 (ops ++ ops_of h) (aw_line x') /\ Forall (fun r => snd r = None) h.
Proof.
  induction 1 as [s x|s x o e s1 x1 h s2 x2 Hr Hrs IH]; intros ops He Hz R; [cbn; rewrite app_nil_r; auto|].
  inversion Hz as [|? ? Z1 Z2]; subst. pose proof (aruns_err _ _ _ _ _ Hrs He) as E1.
  assert (K : s1 = s /\ e = None /\ reached w0 s0 (ops ++ [op_of o]) (aw_line x1)).
  { destruct (op_line_dec o) as [[d D]|N].
    - apply (run_aop_line s o x e s1 x1 d D) in Hr. destruct (line_stateless dstep s s d _ _ _ _ (proj2 R) Hr) as (-> & _ & _ & Hn).
      rewrite (Hn E1) in *. split; [reflexivity|]. split; [reflexivity|]. rewrite D. eapply reached_line; eassumption.
    - destruct (run_aop_lift s o x e s1 x1 N Hr) as [-> L]. split; [reflexivity|].
      assert (en : e = None /\ wr_hooks (aw_line x1) = []).
      { specialize (L s). destruct o as [p|st m| | |lvl|]; cbn [op_of run_op] in *; try (now elim (N _ eq_refl)).
        - pose proof (flush_hks dstep (aw_line x)) as F. destruct (flush dstep (aw_line x)) as [[e1 w1]| |] eqn:FE; try discriminate. injection L as <- L2.
          cbn in F. rewrite <- L2, F. split; [|exact (proj2 R)]. destruct e1 as [e1|]; [|reflexivity]. apply flush_fails in FE. rewrite L2 in FE. congruence.
        - cbn in Z1. destruct Z1 as [_ ->]. split; [reflexivity|]. pose proof (enable_hks dinit dstep lvl (aw_line x)) as F. destruct (enable_zlib_level dinit dstep lvl (aw_line x)) as [[e1 w1]| |]; try discriminate.
          injection L as -> <-. cbn in F. rewrite F. exact (proj2 R).
        - cbn in Z1. subst e. split; [reflexivity|]. pose proof (disable_hks dstep (aw_line x)) as F. destruct (disable_zlib dstep (aw_line x)) as [[e1 w1]| |]; try discriminate.
          injection L as -> <-. cbn in F. rewrite F. exact (proj2 R). }
      destruct en as [-> Hh]. split; [reflexivity|]. apply (reached_lift dinit dstep w0 s0 ops (aw_line x) (op_of o) (aw_line x1) R (L s0)); auto.
      destruct o; cbn; discriminate. }
  destruct K as (-> & -> & K). destruct (IH _ He Z2 K) as (-> & K2 & K3). split; [reflexivity|]. split; [|constructor; [reflexivity|exact K3]].
  cbn [ops_of map fst]. rewrite <- app_assoc in K2. exact K2.
Qed.
End Writing.

(** ** From the writer to the reader *)
Section Arrives.
Context {W dst : Type} (dinit : Z -> dst) (dstep : dst -> dop -> dst * list bytes).

Lemma no_switch_fine h : Forall no_switch h -> Forall switch_ok h.
Proof. apply Forall_impl. intros [[] e]; cbn; auto; contradiction. Qed.
Lemma no_switch_ops h : Forall no_switch h -> Forall line_op (ops_of h).
Proof. induction 1 as [|[o e] h H _ IH]; cbn [ops_of map]; constructor; auto. destruct o; cbn in *; auto; contradiction. Qed.

Theorem arrives script size tmo s0 h s (x : awriter W dst) :
  aruns dinit dstep s0 (afresh script size tmo) h s x -> Forall no_switch h -> wr_err (aw_line x) = None ->
  Forall (fun r => snd r = None) h /\
  exists pending, concat (map item_line (aop_items h)) = delivered (cn_trace (wr_conn (aw_line x))) ++ pending /\
    (forall h' e, h = h' ++ [(AFlush, e)] -> pending = []).
Proof.
  intros H Hn He. destruct (aruns_reached dinit dstep (fresh script size [] tmo) s0 _ _ _ _ _ H [] He (no_switch_fine _ Hn)) as (_ & [K2 _] & K3).
  { apply fresh_reached. }
  split; [exact K3|]. cbn [app] in K2.
  destruct (in_order dinit dstep _ _ _ _ _ _ _ _ _ _ K2 (line_data _ (done_forall _ _ (no_switch_ops _ Hn))) He) as (pending & P1 & P2).
  rewrite ops_lines in P1. exists pending. split; [exact P1|]. intros h' e ->. rewrite ops_of_app, done_app in P2. exact (P2 _ 0 eq_refl).
Qed.

Lemma items_app a b : aop_items (a ++ b) = aop_items a ++ aop_items b. Proof. apply flat_map_app. Qed.
Lemma packets_app a b : packets (a ++ b) = packets a ++ packets b.
Proof. induction a as [|[p|] a IH]; cbn; [reflexivity| |]; now rewrite ?IH. Qed.
Lemma keep_alives_app a b : keep_alives (a ++ b) = keep_alives a + keep_alives b.
Proof. induction a as [|[p|] a IH]; cbn; [reflexivity| |]; now rewrite ?IH. Qed.

(** A compressed section in the middle, on the level of lines *)
Context {W' zstate : Type} (act : zstate -> zaction zstate) (zinit : zstate).
Theorem sections_arrive script size tmo s0 h1 lvl h2 h3 e s (x : awriter W dst) maxline c (w : W') :
  matching act zinit dinit dstep -> (-2 <= lvl <= 9)%Z -> Forall honest script ->
  aruns dinit dstep s0 (afresh script size tmo) (h1 ++ (AEnable lvl, None) :: h2 ++ (ADisable, None) :: h3 ++ [(AFlush, e)]) s x ->
  Forall no_switch (h1 ++ h2 ++ h3) -> wr_err (aw_line x) = None -> Forall one_line (packets (aop_items (h1 ++ h2 ++ h3))) ->
  Forall (fun l => within maxline (length l)) (map item_line (aop_items (h1 ++ h2 ++ h3))) -> within maxline 1 ->
  Forall solid c -> script_data c = delivered (cn_trace (wr_conn (aw_line x))) ->
  exists r1 r2, leads act (limited (W:=W') maxline [] c x0a) (map item_line (aop_items h1)) r1 /\
    eventually (fun f => enable_zlib act zinit f r1 = Some (ROk tt, r2)) /\
    supplies act r2 (map item_line (aop_items (h2 ++ h3))).
Proof.
  intros Hm Hlvl Hh H Hn He Ho Hw Hw1 Hc Hd.
  apply Forall_app in Hn. destruct Hn as [Hn1 Hn]. pose proof Hn as Hn23. apply Forall_app in Hn. destruct Hn as [Hn2 Hn3].
  assert (Hz : Forall switch_ok (h1 ++ (AEnable lvl, None) :: h2 ++ (ADisable, None) :: h3 ++ [(AFlush, e)])).
  { apply Forall_app. split; [now apply no_switch_fine|]. constructor; [cbn; auto|]. apply Forall_app. split; [now apply no_switch_fine|].
    constructor; [reflexivity|]. apply Forall_app. split; [now apply no_switch_fine|repeat constructor]. }
  destruct (aruns_reached dinit dstep (fresh script size [] tmo) s0 _ _ _ _ _ H [] He Hz) as (_ & [K2 _] & _).
  { apply fresh_reached. }
  cbn [app] in K2. rewrite ops_of_app in K2. cbn [ops_of map fst op_of] in K2. fold (ops_of (h2 ++ (ADisable, None) :: h3 ++ [(AFlush, e)])) in K2.
  rewrite ops_of_app in K2. cbn [ops_of map fst op_of] in K2. fold (ops_of (h3 ++ [(AFlush, e)])) in K2. rewrite ops_of_app in K2. cbn [ops_of map fst op_of] in K2.
  fold (ops_of h1) (ops_of h2) (ops_of h3) in K2.
  pose proof (no_switch_ops _ Hn1) as M1. pose proof (no_switch_ops _ Hn2) as M2. pose proof (no_switch_ops _ Hn3) as M3.
  set (l1 := map item_line (aop_items h1)) in *. set (l2 := map item_line (aop_items h2)) in *. set (l3 := map item_line (aop_items h3)) in *.
  assert (L1 : op_lines (ops_of h1) = l1) by apply ops_lines. assert (L2 : op_lines (ops_of h2) = l2) by apply ops_lines. assert (L3 : op_lines (ops_of h3) = l3) by apply ops_lines.
  set (o1 := ops_of h1) in *. set (o3 := ops_of h2) in *. set (o5 := ops_of h3) in *.
  assert (HS : op_sections (o1 ++ OEnable lvl :: o3 ++ ODisable :: o5 ++ [OFlush]) ([], SPlain []) =
    ([SPlain (concat l1); SZlib lvl (concat l2)], SPlain (concat l3))).
  { rewrite op_sections_app, op_sections_lines by assumption. cbn [op_sections advance fst snd]. rewrite op_sections_app, op_sections_lines by assumption.
    cbn [op_sections advance fst snd]. rewrite op_sections_app, op_sections_lines by assumption. cbn [op_sections advance fst snd app extend].
    rewrite L1, L2, L3. now rewrite !app_nil_r. }
  rewrite HS in K2.
  assert (HN : Forall no_failure (done (o1 ++ OEnable lvl :: o3 ++ ODisable :: o5 ++ [OFlush]))).
  { assert (G : forall o, Forall line_op o -> Forall no_failure (done o)).
    { induction 1 as [|y l Hy _ IH]; constructor; auto. destruct y; cbn; auto; contradiction. }
    rewrite done_app. apply Forall_app. split; [auto|]. cbn [done map]. constructor; [exact Hlvl|].
    change (Forall no_failure (done (o3 ++ ODisable :: o5 ++ [OFlush]))). rewrite done_app. apply Forall_app. split; [auto|]. cbn [done map]. constructor; [exact I|].
    change (Forall no_failure (done (o5 ++ [OFlush]))). rewrite done_app. apply Forall_app. split; [auto|]. constructor; [exact I|constructor]. }
  destruct (sections dinit dstep _ _ _ _ _ _ _ _ _ _ Hh K2 HN He) as (_ & base & cur & flushed & pending & R & Ro & E & Hdl & Hpd).
  assert (pending = []) as ->.
  { apply (Hpd (done (o1 ++ OEnable lvl :: o3 ++ ODisable :: o5)) 0).
    change [(OFlush, (0, None))] with (done [OFlush]). rewrite <- done_app. f_equal. rewrite <- app_assoc. cbn [app]. do 2 f_equal. now rewrite <- app_assoc. }
  cbn [fst snd] in *. destruct R as (bs & R & ->). inversion R as [|? b1 ? bs1 R1 Rt]; subst. inversion Rt as [|? b2 ? bs2 R2 Rt2]; subst. inversion Rt2; subst.
  inversion R1; subst. inversion R2 as [|? ops Hno Hq1 Hq2]; subst.
  assert (flushed = concat l3) as ->.
  { inversion Ro; subst; cbn in E; [|discriminate]. injection E as E. now rewrite app_nil_r in E. }
  set (z := snd (deflate dstep (dinit lvl) (ops ++ [DClose]))) in *.
  assert (Hsd : script_data c = concat l1 ++ z ++ concat l3) by (rewrite Hd, Hdl; cbn; now rewrite app_nil_r, <- !app_assoc).
  assert (HLI : Forall (is_line x0a) (map item_line (aop_items (h1 ++ h2 ++ h3)))) by (now apply items_are_lines).
  rewrite !items_app, !map_app in HLI, Hw. fold l1 l2 l3 in HLI, Hw.
  apply Forall_app in HLI. destruct HLI as [HL1 HL2]. apply Forall_app in Hw. destruct Hw as [HW1 HW2].
  destruct (limited_feeds act (W:=W') Solid maxline [] c [] x0a) as [mm Hmm].
  { revert Hc. apply Forall_impl. intros [d er] K. exact K. }
  rewrite app_nil_r, Hsd in Hmm. destruct (limited_fields (W:=W') (zstate:=zstate) maxline [] c x0a) as (E1 & E2 & E3 & _ & _ & E6 & _ & E8).
  destruct (feeds_leads act w Solid l1 mm _ (z ++ concat l3) Hmm E3 E8) as (m1 & r1 & J1 & J2 & J3 & J4); rewrite ?E1, ?E2; auto.
  pose proof J3 as (C1 & C2 & C3 & C4).
  destruct (enable_zlib_ok act zinit r1 m1 z (written ops) (concat l3)) as (r2 & P1 & P2 & P3 & P4); [congruence|auto|exact J2|exact (Hm lvl ops Hlvl Hno)|].
  pose proof P3 as (D1 & D2 & D3 & D4). destruct (P2 Lax) as [m2 Hm2].
  assert (Hda : written ops ++ concat l3 = concat (l2 ++ l3) ++ []) by (rewrite concat_app, app_nil_r; f_equal; congruence).
  rewrite Hda in Hm2. exists r1, r2. split; [exact J1|]. split; [exact P1|]. rewrite items_app, map_app. fold l2 l3.
  apply (feeds_supplies act Lax (l2 ++ l3) m2 r2 [] Hm2).
  - congruence.
  - congruence.
  - rewrite D1, C1, E1. exact HL2.
  - easy.
  - rewrite D2, C2, E2. exact HW2.
  - rewrite D2, C2, E2. exact Hw1.
Qed.
End Arrives.
