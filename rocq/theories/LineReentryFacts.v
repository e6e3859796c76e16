(** Proofs about line callbacks that call the reader they belong to. *)
From Verif Require Import Base BaseFacts LineReader LineShareFacts LineReentry SpecLine LineReaderStream LineSession LineFuel SpecSession SpecReentry.

Section Reentry.
Context {W Z : Type} (act : Z -> zaction Z) (zinit : Z).
Notation lr := (@lreader W Z).
Notation ev := SpecLine.eventually.

Lemma prog_does : forall (p : hprog W) f (s : lr) w v s', run_prog act zinit f p s = Some (w, v, s') -> does act zinit p s w v s'.
Proof.
  induction p as [w0 v0|w0|k IH|n k IH|z p IH|h IHh p IH|p IH]; intros f [hs r] w v s' E; cbn [run_prog lr_hooks lr_rest] in E.
  - inversion E; constructor.
  - inversion E; constructor.
  - destruct (enable_zlib act zinit f r) as [[o r']|] eqn:Z1; [|discriminate]. eapply do_zlib; [exact Z1|]. eapply IH, E.
  - destruct (reader_read act f n r) as [[o r']|] eqn:Z1; [|discriminate]. eapply do_read; [exact Z1|]. eapply IH, E.
  - constructor. eapply IH, E.
  - constructor. eapply IH, E.
  - constructor. eapply IH, E.
Qed.
Lemma does_prog p (s : lr) w v s' : does act zinit p s w v s' -> ev (fun f => run_prog act zinit f p s = Some (w, v, s')).
Proof.
  induction 1 as [| |k hs r f o r' w v s' E D [f2 IH]|n k hs r f o r' w v s' E D [f2 IH]|z p hs r w v s' D [f2 IH]|h p hs r w v s' D [f2 IH]|p hs r w v s' D [f2 IH]].
  - now exists 0.
  - now exists 0.
  - exists (f + f2). intros g L. cbn [run_prog lr_hooks lr_rest]. rewrite (zlib_more act zinit f g r _) with (2 := E) by lia. apply IH. lia.
  - exists (f + f2). intros g L. cbn [run_prog lr_hooks lr_rest]. rewrite (read_more act f g n r _) with (2 := E) by lia. apply IH. lia.
  - exists f2. intros g L. cbn [run_prog lr_hooks lr_rest]. now apply IH.
  - exists f2. intros g L. cbn [run_prog lr_hooks lr_rest]. now apply IH.
  - exists f2. intros g L. cbn [run_prog lr_hooks lr_rest]. now apply IH.
Qed.
Lemma progs_asked : forall hs f w l (s : lr) w' v s', run_progs act zinit f hs w l s = Some (w', v, s') -> asked act zinit hs w l s w' v s'.
Proof.
  induction hs as [|h hs IH]; intros f w l s w' v s' E; cbn [run_progs] in E; [inversion E; constructor|].
  destruct (run_prog act zinit f (h w l) s) as [[[w1 v1] s1]|] eqn:P; [|discriminate]. apply prog_does in P.
  destruct v1 as [[| |e]|]; [|inversion E; subst; apply as_stop; [exact P|discriminate]..]. eapply as_pass; [exact P|]. eapply IH, E.
Qed.
Lemma asked_progs hs w l (s : lr) w' v s' : asked act zinit hs w l s w' v s' -> ev (fun f => run_progs act zinit f hs w l s = Some (w', v, s')).
Proof.
  induction 1 as [w l s|h hs w l s w1 s1 w2 v s2 D A [f2 IH]|h hs w l s w1 v s1 D N].
  - now exists 0.
  - destruct (does_prog _ _ _ _ _ D) as [f1 E]. exists (f1 + f2). intros g L. cbn [run_progs]. rewrite E by lia. apply IH. lia.
  - destruct (does_prog _ _ _ _ _ D) as [f1 E]. exists f1. intros g L. cbn [run_progs]. rewrite E by lia. destruct v as [[| |e]|]; try reflexivity. now destruct N.
Qed.

(** The fields of a reader that scanning keeps. *)
Lemma under_open {X} f n (r : reader X Z) o r' : under_read act f n r = Some (o, r') -> rd_open r' = rd_open r /\ rd_hooks r' = rd_hooks r.
Proof.
  unfold under_read. destruct (rd_zcur r).
  - destruct (zread _ _ _ _ _ _) as [[[[x z] o1] c]|]; [|discriminate]. intro E. inversion E; subst. now split.
  - destruct (conn_read n (rd_conn r)) as [[d e] c]. intro E. inversion E; subst. now split.
Qed.
Lemma scan_open {X} f (r : reader X Z) o r' : scan act f r = Some (o, r') -> rd_open r' = rd_open r /\ rd_hooks r' = rd_hooks r.
Proof.
  assert (SB : forall d b (x : reader X Z), rd_open (snd (scan_buf d b x)) = rd_open x /\ rd_hooks (snd (scan_buf d b x)) = rd_hooks x).
  { intros. unfold scan_buf, set_cur_buf. destruct (index_byte d b), (rd_zcur x); now split. }
  unfold scan. destruct (cur_buf r) as [|b bs].
  - destruct (under_read act f read_buf r) as [[[[d e]|e|] r1]|] eqn:U; [| | |discriminate]; destruct (under_open _ _ _ _ _ U) as [U1 U2].
    + assert (T : Some (scan_buf (rd_delim r) d r1) = Some (o, r') -> rd_open r' = rd_open r /\ rd_hooks r' = rd_hooks r).
      { intro E. injection E as E1. generalize (SB (rd_delim r) d r1). rewrite E1. cbn [snd]. now rewrite U1, U2. }
      destruct d as [|b d]; [destruct e as [e|]; [intro E; inversion E; subst; now split|exact T]|exact T].
    + intro E; inversion E; subst; now split.
    + intro E; inversion E; subst; now split.
  - intro E. inversion E as [E1]. generalize (SB (rd_delim r) (b :: bs) r). now rewrite E1.
Qed.

(** What ReadLine does once it has read the beginning of a line. *)
Definition from (w : W) (line : bytes) (hs : list (W -> bytes -> hprog W)) (r : reader unit Z) (o : line_out) (w' : W) (s' : lr) : Prop :=
  exists f0 o0 r0, read_loop act f0 tt line r = Some (o0, tt, r0) /\
    match o0 with
    | LLine l => exists w1 v s1, asked act zinit hs w l (mkLreader hs r0) w1 v s1 /\
        match v with
        | Some HPass => o = LLine l /\ w' = w1 /\ s' = s1
        | Some (HErr e) => o = LErr None e /\ w' = w1 /\ s' = s1
        | None => o = LPanic /\ w' = w1 /\ s' = s1
        | Some HDrop => if rd_open (lr_rest s1) then re_reads act zinit w1 s1 o w' s' else o = LPanic /\ w' = w1 /\ s' = s1
        end
    | _ => o = o0 /\ w' = w /\ s' = mkLreader hs r0
    end.
Lemma from_reads w hs r o w' s' : rd_open r = true -> from w [] hs r o w' s' -> re_reads act zinit w (mkLreader hs r) o w' s'.
Proof.
  intros O (f0 & o0 & r0 & E & H). assert (RL : read_line act f0 tt r = Some (o0, tt, r0)) by (unfold read_line; now rewrite O).
  destruct o0 as [l|p e|]; [|destruct H as (-> & -> & ->); eapply re_none; [exact RL|discriminate]..].
  destruct H as (w1 & v & s1 & A & H). destruct v as [[| |e]|].
  - destruct H as (-> & -> & ->). eapply re_pass; eassumption.
  - destruct (rd_open (lr_rest s1)) eqn:O1; [eapply re_drop; eassumption|]. destruct H as (-> & -> & ->). eapply re_drop_closed; eassumption.
  - destruct H as (-> & -> & ->). eapply re_error; eassumption.
  - destruct H as (-> & -> & ->). eapply re_panic; eassumption.
Qed.
(** The reader without callbacks. *)
Lemma bare_more f line (r : reader unit Z) pref r' o : ((0 <? rd_max r) && (rd_max r <=? BinInt.Z.of_nat (length line)))%Z%bool = false ->
  scan act f r = Some (ROk (pref, true), r') -> (exists f0, read_loop act f0 tt (line ++ pref) r' = Some o) -> exists f0, read_loop act f0 tt line r = Some o.
Proof.
  intros OV SC [f0 E]. exists (S (f + f0)). cbn [read_loop]. rewrite OV, (scan_more act f (f + f0) _ _) with (2 := SC) by lia.
  apply (loop_more act f0); [lia|exact E].
Qed.
(** No callbacks at all in the part of the reader that does not keep them. *)
Definition bare (s : lr) : Prop := rd_hooks (lr_rest s) = [].
Lemma zlib_hooks f (r : reader unit Z) o r' : enable_zlib act zinit f r = Some (o, r') -> rd_hooks r' = rd_hooks r.
Proof.
  unfold enable_zlib. destruct (rd_open r); [|intro E; now inversion E]. destruct (rd_zlib_on r); [intro E; now inversion E|]. cbv zeta.
  destruct (zopen _ _ _ _ _) as [[[[st|e|] o1] c]|]; intro E; inversion E; reflexivity.
Qed.
Lemma read_hooks f n (r : reader unit Z) o r' : reader_read act f n r = Some (o, r') -> rd_hooks r' = rd_hooks r.
Proof.
  assert (C : forall (x : reader unit Z) o1 y, cur_read act f n x = Some (o1, y) -> rd_hooks y = rd_hooks x).
  { intros x o1 y. unfold cur_read. destruct (cur_buf x); [intro E; eapply under_open, E|]. intro E. inversion E. unfold set_cur_buf. now destruct (rd_zcur x). }
  unfold reader_read. destruct (rd_open r); [|intro E; now inversion E]. destruct (cur_read act f n r) as [[x r1]|] eqn:E1; [|discriminate]. apply C in E1.
  destruct x as [[d [e|]]|e|]; [|intro E; inversion E; subst; auto..]. destruct (_ && _)%bool; [|intro E; inversion E; subst; auto].
  destruct d; [|intro E; inversion E; subst; auto]. intro E. apply C in E. rewrite E. exact E1.
Qed.
Lemma does_bare p (s : lr) w v s' : does act zinit p s w v s' -> bare s -> bare s'.
Proof.
  unfold bare. induction 1; cbn [lr_rest] in *; intro BS; auto.
  - apply IHdoes. erewrite zlib_hooks by eassumption. exact BS.
  - apply IHdoes. erewrite read_hooks by eassumption. exact BS.
Qed.
Lemma asked_bare hs w l (s : lr) w' v s' : asked act zinit hs w l s w' v s' -> bare s -> bare s'.
Proof. induction 1; intro H1; auto; [apply IHasked|]; eapply does_bare; eassumption. Qed.

Lemma not_over (z : BinInt.Z) : ((0 <? z) && (z <=? BinInt.Z.of_nat (length (@nil byte))))%Z%bool = false.
Proof. apply Bool.andb_false_iff. cbn. destruct (Z.ltb_spec 0 z); [right; apply Z.leb_gt; lia|now left]. Qed.
Lemma loop_from : forall f w line (s : lr) o w' s', bare s -> rd_open (lr_rest s) = true -> re_loop act zinit f w line s = Some (o, w', s') ->
  from w line (lr_hooks s) (lr_rest s) o w' s'.
Proof.
  induction f as [|f IH]; intros w line [hs r] o w' s' BA O E; [discriminate|]. unfold bare in BA. cbn [lr_hooks lr_rest] in *. cbn [re_loop lr_hooks lr_rest] in E.
  destruct (_ && _)%bool eqn:OV.
  { inversion E; subst. exists 1, (LErr None err_exhausted), r. cbn [read_loop]. rewrite OV. auto. }
  rewrite O in E. cbn [negb] in E. destruct (scan act f r) as [[so r1]|] eqn:SC; [|discriminate]. destruct (scan_open _ _ _ _ SC) as [O1 H1].
  destruct so as [[pref more]|e|].
  - destruct more.
    + destruct (IH w (line ++ pref) (mkLreader hs r1) o w' s') as (f0 & o0 & r0 & E0 & H0); [unfold bare; cbn; congruence|cbn; congruence|exact E|]. cbn [lr_hooks lr_rest] in *.
      destruct (bare_more f line r pref r1 (o0, tt, r0) OV SC) as [f1 E1]; [now exists f0|]. exists f1, o0, r0. split; [exact E1|exact H0].
    + exists (S f), (LLine (line ++ pref)), r1. split; [cbn [read_loop]; now rewrite OV, SC, H1, BA|].
      destruct (run_progs act zinit f hs w (line ++ pref) (mkLreader hs r1)) as [[[w1 v] s1]|] eqn:P; [|discriminate]. apply progs_asked in P.
      exists w1, v, s1. split; [exact P|]. destruct v as [[| |e]|]; [inversion E; subst; auto| |inversion E; subst; auto..].
      assert (B1 : bare s1) by (eapply asked_bare; [exact P|unfold bare; cbn; congruence]).
      destruct (rd_open (lr_rest s1)) eqn:O2.
      * specialize (IH w1 [] s1 o w' s' B1 O2 E). apply (from_reads _ _ _ _ _ _ O2) in IH. now destruct s1.
      * destruct f as [|f]; [discriminate|]. cbn [re_loop] in E. rewrite O2 in E. cbn [negb] in E.
        rewrite not_over in E. inversion E; subst; auto.
  - destruct (is_eof e && rd_zlib_on r1)%bool eqn:Q.
    + destruct (IH w line (mkLreader hs (with_mode false false r1)) o w' s') as (f0 & o0 & r0 & E0 & H0); [unfold bare; cbn; congruence|cbn; congruence|exact E|]. cbn [lr_hooks lr_rest] in *.
      exists (S (f + f0)), o0, r0. split; [|exact H0]. cbn [read_loop]. rewrite OV, (scan_more act f (f + f0) _ _) with (2 := SC) by lia. rewrite Q.
      apply (loop_more act f0); [lia|exact E0].
    + inversion E; subst. exists (S f), (LErr (Some line) e), r1. cbn [read_loop]. rewrite OV, SC, Q. auto.
  - inversion E; subst. exists (S f), LPanic, r1. cbn [read_loop]. rewrite OV, SC. auto.
Qed.
Lemma line_reads f w (s : lr) o w' s' : bare s -> re_read_line act zinit f w s = Some (o, w', s') -> re_reads act zinit w s o w' s'.
Proof.
  intros BA E. unfold re_read_line in E. destruct (rd_open (lr_rest s)) eqn:O.
  - destruct s as [hs r]. apply from_reads; [exact O|]. exact (loop_from _ _ _ _ _ _ _ BA O E).
  - inversion E; subst. destruct s' as [hs r]. cbn in O. apply (re_none act zinit w' hs r 0 (LErr None err_closed) r); [unfold read_line; now rewrite O|discriminate].
Qed.

(** And back. *)
Lemma bare_loop : forall f line (hs : list (W -> bytes -> hprog W)) (r : reader unit Z) o r', rd_hooks r = [] -> rd_open r = true -> read_loop act f tt line r = Some (o, tt, r') ->
  match o with
  | LLine l => forall w out, ev (fun f => match run_progs act zinit f hs w l (mkLreader hs r') with
                | None => None
                | Some (w', Some HPass, s2) => Some (LLine l, w', s2)
                | Some (w', Some HDrop, s2) => re_loop act zinit f w' [] s2
                | Some (w', Some (HErr e), s2) => Some (LErr None e, w', s2)
                | Some (w', None, s2) => Some (LPanic, w', s2)
                end = Some out) -> ev (fun f => re_loop act zinit f w line (mkLreader hs r) = Some out)
  | _ => forall w, ev (fun f => re_loop act zinit f w line (mkLreader hs r) = Some (o, w, mkLreader hs r'))
  end.
Proof.
  induction f as [|f IH]; intros line hs r o r' BA O E; [discriminate|]. cbn [read_loop] in E.
  destruct (_ && _)%bool eqn:OV.
  { inversion E; subst. intro w. exists 1. intros g L. destruct g; [lia|]. cbn [re_loop lr_rest]. now rewrite OV. }
  destruct (scan act f r) as [[so r1]|] eqn:SC; [|discriminate]. destruct (scan_open _ _ _ _ SC) as [O1 H1]. rewrite O in O1. rewrite BA in H1.
  destruct so as [[pref more]|e|].
  - destruct more.
    + specialize (IH (line ++ pref) hs r1 o r' H1 O1 E).
      assert (ST : forall w out, ev (fun f => re_loop act zinit f w (line ++ pref) (mkLreader hs r1) = Some out) -> ev (fun f => re_loop act zinit f w line (mkLreader hs r) = Some out)).
      { intros w out [f1 Q]. exists (S (f + f1)). intros g L. destruct g as [|g]; [lia|]. cbn [re_loop lr_rest lr_hooks]. rewrite OV, O. cbn [negb].
        rewrite (scan_more act f g _ _) with (2 := SC) by lia. apply Q. lia. }
      destruct o; [intros w out Q; now apply ST, IH|intro w; now apply ST, IH..].
    + rewrite H1 in E. cbn [run_hooks] in E. inversion E; subst. intros w out [f1 Q]. exists (S (f + f1)). intros g L. destruct g as [|g]; [lia|].
      cbn [re_loop lr_rest lr_hooks]. rewrite OV, O. cbn [negb]. rewrite (scan_more act f g _ _) with (2 := SC) by lia. apply (Q g). lia.
  - destruct (is_eof e && rd_zlib_on r1)%bool eqn:Q.
    + specialize (IH line hs (with_mode false false r1) o r' H1 O1 E).
      assert (ST : forall w out, ev (fun f => re_loop act zinit f w line (mkLreader hs (with_mode false false r1)) = Some out) -> ev (fun f => re_loop act zinit f w line (mkLreader hs r) = Some out)).
      { intros w out [f1 Q1]. exists (S (f + f1)). intros g L. destruct g as [|g]; [lia|]. cbn [re_loop lr_rest lr_hooks]. rewrite OV, O. cbn [negb].
        rewrite (scan_more act f g _ _) with (2 := SC) by lia. rewrite Q. apply Q1. lia. }
      destruct o; [intros w out Q1; now apply ST, IH|intro w; now apply ST, IH..].
    + inversion E; subst. intro w. exists (S f). intros g L. destruct g as [|g]; [lia|]. cbn [re_loop lr_rest lr_hooks]. rewrite OV, O. cbn [negb].
      rewrite (scan_more act f g _ _) with (2 := SC) by lia. now rewrite Q.
  - inversion E; subst. intro w. exists (S f). intros g L. destruct g as [|g]; [lia|]. cbn [re_loop lr_rest lr_hooks]. rewrite OV, O. cbn [negb].
    now rewrite (scan_more act f g _ _) with (2 := SC) by lia.
Qed.
Lemma line_hooks f (r : reader unit Z) o r' : rd_hooks r = [] -> read_line act f tt r = Some (o, tt, r') -> rd_hooks r' = [] /\ (forall l, o = LLine l -> rd_open r = true).
Proof.
  intro BA. unfold read_line. destruct (rd_open r); [|intro E; inversion E; subst; split; [exact BA|discriminate]].
  intro E. split; [|reflexivity]. revert E. generalize (@nil byte). revert r BA. induction f as [|f IH]; intros r BA line E; [discriminate|]. cbn [read_loop] in E.
  destruct (_ && _)%bool; [inversion E; now subst|]. destruct (scan act f r) as [[so r1]|] eqn:SC; [|discriminate]. destruct (scan_open _ _ _ _ SC) as [_ H1]. rewrite BA in H1.
  destruct so as [[pref more]|e|]; [destruct more; [eapply IH; eassumption|]; rewrite H1 in E; cbn in E; inversion E; now subst| |inversion E; now subst].
  destruct (_ && _)%bool; [eapply IH; [|exact E]; exact H1|]. inversion E; now subst.
Qed.
Lemma reads_line w (s : lr) o w' s' : re_reads act zinit w s o w' s' -> bare s -> ev (fun f => re_read_line act zinit f w s = Some (o, w', s')).
Proof.
  assert (BR : forall (hs : list (W -> bytes -> hprog W)) (r : reader unit Z) f l r', rd_hooks r = [] -> read_line act f tt r = Some (LLine l, tt, r') -> forall w out, 
    ev (fun f => match run_progs act zinit f hs w l (mkLreader hs r') with
                | None => None
                | Some (w', Some HPass, s2) => Some (LLine l, w', s2)
                | Some (w', Some HDrop, s2) => re_loop act zinit f w' [] s2
                | Some (w', Some (HErr e), s2) => Some (LErr None e, w', s2)
                | Some (w', None, s2) => Some (LPanic, w', s2)
                end = Some out) -> ev (fun f => re_read_line act zinit f w (mkLreader hs r) = Some out)).
  { intros hs r f l r' BA E w0 out Q. destruct (line_hooks _ _ _ _ BA E) as [_ O]. specialize (O l eq_refl). unfold read_line in E. unfold re_read_line. cbn [lr_rest]. rewrite O in *.
    exact (bare_loop _ _ _ _ _ _ BA O E w0 out Q). }
  induction 1 as [w hs r f o r' E N|w hs r f l r' w' s' E A|w hs r f l r' w' e s' E A|w hs r f l r' w' s' E A|w hs r f l r' w' s' o w2 s2 E A O R IH|w hs r f l r' w' s' E A O];
    unfold bare; cbn [lr_rest]; intro BA; [|apply (BR _ _ _ _ _ BA E); destruct (asked_progs _ _ _ _ _ _ _ A) as [f1 P]..].
  - unfold re_read_line, read_line in *. cbn [lr_rest]. destruct (rd_open r) eqn:O.
    + pose proof (bare_loop _ _ hs _ _ _ BA O E) as Q. destruct o as [l| |]; [now destruct (N l)|exact (Q w)..].
    + inversion E; subst. now exists 0.
  - exists f1. intros g L. now rewrite P.
  - exists f1. intros g L. now rewrite P.
  - exists f1. intros g L. now rewrite P.
  - assert (BS : bare s') by (eapply asked_bare; [exact A|]; unfold bare; cbn; now destruct (line_hooks _ _ _ _ BA E)).
    destruct (IH BS) as [f2 Q]. exists (f1 + f2). intros g L. rewrite P by lia. specialize (Q g ltac:(lia)). unfold re_read_line in Q. now rewrite O in Q.
  - exists (S f1). intros g L. rewrite P by lia. destruct g as [|g]; [lia|]. cbn [re_loop]. rewrite O. cbn [negb].
    now rewrite not_over.
Qed.

(** Callbacks that do not call the reader. *)
Lemma plain_progs f : forall (hs : list (hook W)) w l (s : lr),
  run_progs act zinit f (map plain_hook hs) w l s = Some (fst (run_hooks hs w l), Some (snd (run_hooks hs w l)), s).
Proof.
  induction hs as [|h hs IH]; intros w l s; [reflexivity|]. cbn [map run_progs run_hooks]. unfold plain_hook at 1. destruct (h w l) as [w1 v]. cbn [run_prog].
  destruct v; [apply IH|reflexivity..].
Qed.
Lemma plain_loop : forall f w line (r : reader W Z), rd_open r = true ->
  re_loop act zinit f w line (of_reader r) = match read_loop act f w line r with Some (o, w', r') => Some (o, w', of_reader r') | None => None end.
Proof.
  induction f as [|f IH]; intros w line r O; [reflexivity|]. cbn [re_loop read_loop]. unfold of_reader at 1 2 3 4 5 6 7 8 9 10 11. cbn [lr_rest lr_hooks].
  change (rd_max (rest_of r)) with (rd_max r). change (rd_open (rest_of r)) with (rd_open r). destruct (_ && _)%bool; [reflexivity|]. rewrite O. cbn [negb].
  change (rest_of r) with (rehook (W2:=unit) [] r). rewrite scan_rehook. destruct (scan act f r) as [[so r1]|] eqn:SC; [|reflexivity].
  assert (KE : rd_open r1 = true /\ rd_hooks r1 = rd_hooks r).
  { destruct (scan_open _ _ _ _ SC) as [O1 H1]. split; [congruence|exact H1]. }
  destruct KE as [O1 H1].
  destruct so as [[pref more]|e|].
  - destruct more.
    + rewrite <- (IH w (line ++ pref) r1 O1). unfold of_reader. now rewrite H1.
    + rewrite <- H1, plain_progs. destruct (run_hooks (rd_hooks r1) w (line ++ pref)) as [w1 v]. cbn [fst snd]. destruct v; [reflexivity| |reflexivity].
      exact (IH w1 [] r1 O1).
  - change (rd_zlib_on (rehook [] r1)) with (rd_zlib_on r1). destruct (_ && _)%bool.
    + rewrite <- (IH w line (with_mode false false r1) O1). unfold of_reader. cbn [rd_hooks with_mode]. now rewrite <- H1.
    + unfold of_reader. now rewrite H1.
  - unfold of_reader. now rewrite H1.
Qed.
Lemma plain_line f w (r : reader W Z) :
  re_read_line act zinit f w (of_reader r) = match read_line act f w r with Some (o, w', r') => Some (o, w', of_reader r') | None => None end.
Proof. unfold re_read_line, read_line. cbn [lr_rest of_reader rest_of rd_open]. destruct (rd_open r) eqn:O; [now apply plain_loop|reflexivity]. Qed.

(** The reader with the callback for compression. *)
Lemma line_unique w (s : lr) o w1 s1 f o2 w2 s2 : bare s -> re_read_line act zinit f w s = Some (o, w1, s1) -> re_reads act zinit w s o2 w2 s2 -> o = o2 /\ w1 = w2 /\ s1 = s2.
Proof.
  intros BA E R. destruct (reads_line _ _ _ _ _ (line_reads _ _ _ _ _ _ BA E) BA) as [f1 E1]. destruct (reads_line _ _ _ _ _ R BA) as [f2 E2].
  specialize (E1 (f1 + f2) ltac:(lia)). specialize (E2 (f1 + f2) ltac:(lia)). rewrite E1 in E2. inversion E2. auto.
Qed.
Lemma lines_cons n w (s : lr) o w1 s1 os w2 s2 : bare s -> re_reads act zinit w s o w1 s1 -> ev (fun f => re_lines act zinit f n w1 s1 = Some (os, w2, s2)) ->
  ev (fun f => re_lines act zinit f (S n) w s = Some (o :: os, w2, s2)).
Proof.
  intros BA R [f2 E2]. destruct (reads_line _ _ _ _ _ R BA) as [f1 E1]. exists (f1 + f2). intros g L. cbn [re_lines]. rewrite E1 by lia. now rewrite E2 by lia.
Qed.
Lemma lines_drop n w w0 (s s0 : lr) out : bare s -> bare s0 -> (forall o w1 s1, re_reads act zinit w0 s0 o w1 s1 -> re_reads act zinit w s o w1 s1) ->
  ev (fun f => re_lines act zinit f (S n) w0 s0 = Some out) -> ev (fun f => re_lines act zinit f (S n) w s = Some out).
Proof.
  intros BA B0 D [f2 E2]. pose proof (E2 f2 (le_n _)) as E. cbn [re_lines] in E. destruct (re_read_line act zinit f2 w0 s0) as [[[o w1] s1]|] eqn:R0; [|discriminate].
  pose proof (line_reads _ _ _ _ _ _ B0 R0) as RR. destruct (reads_line _ _ _ _ _ (D _ _ _ RR) BA) as [f1 E1]. destruct (reads_line _ _ _ _ _ RR B0) as [f3 E3].
  exists (f1 + f2 + f3). intros g L. specialize (E2 g ltac:(lia)). cbn [re_lines] in *. rewrite E3 in E2 by lia. now rewrite E1 by lia.
Qed.

Lemma zon_lines delim max zon t os rest : SpecReentry.carries act zinit delim max zon t os rest -> forall w (s : lr), bare s -> lr_hooks s = [zon_hook zon] ->
  serves act zinit (lr_rest s) t -> rd_delim (lr_rest s) = delim -> rd_max (lr_rest s) = max ->
  exists s', ev (fun f => re_lines act zinit f (S (length os)) w s = Some (os ++ [LErr (Some rest) EEOF], w, s')) /\ serves act zinit (lr_rest s') (Plain []) /\ lr_hooks s' = lr_hooks s.
Proof.
  pose proof (serves_session (W := unit) act zinit) as SS.
  assert (LN : forall (r : reader unit Z) t l u, rd_hooks r = [] -> serves act zinit r t -> contents t = l ++ u -> is_line (rd_delim r) l -> within (rd_max r) (length l) ->
    exists r' f, serves act zinit r' (after (length l) t) /\ keeps r r' /\ read_line act f tt r = Some (LLine l, tt, r') /\ rd_open r' = true).
  { intros r t0 l u H0 SV C L M. destruct (se_line _ _ _ SS r t0 l u tt tt HPass SV C L M) as (r' & S1 & K & [f E]); [rewrite H0; constructor|].
    exists r', f. specialize (E f (le_n _)). split; [exact S1|]. split; [exact K|]. split; [exact E|]. destruct K as (_ & _ & -> & _).
    destruct (line_hooks _ _ _ _ H0 E) as [_ Q]. exact (Q l eq_refl). }
  induction 1 as [t ND WI|t l u os rest C L M NZ CA IH|t u z x more os rest C L M AF INF CA IH|t u x more os rest C L M AF NE CA IH];
    intros w [hs r]; unfold bare; cbn [lr_hooks lr_rest]; intros BA HH SV DE MA; subst delim max hs.
  - destruct (se_rest _ _ _ SS r t tt SV ND WI) as (r' & S1 & K & [f E]). exists (mkLreader [zon_hook zon] r'). split; [|now split]. cbn [length app].
    eapply lines_cons; [exact BA|eapply re_none; [exact (E f (le_n _))|discriminate]|now exists 0].
  - destruct (LN r t l u BA SV C L M) as (r' & f & S1 & (K1 & K2 & K3 & K4) & E & O).
    destruct (IH w (mkLreader [zon_hook zon] r')) as (s' & EV & SV' & HS); [unfold bare; cbn; congruence|reflexivity|exact S1|exact K1|exact K2|].
    exists s'. split; [|now split]. cbn [length app]. eapply lines_cons; [exact BA|eapply re_pass; [exact E|]|exact EV].
    eapply as_pass; [|constructor]. unfold zon_hook. rewrite (proj2 (bytes_eqb_false l zon) NZ). constructor.
  - destruct (LN r t zon u BA SV C L M) as (r' & f & S1 & (K1 & K2 & K3 & K4) & E & O). rewrite AF in S1.
    destruct (se_zlib _ _ _ SS r' z x more S1 INF) as (r2 & S2 & (J1 & J2 & J3 & J4) & [f2 E2]).
    destruct (IH w (mkLreader [zon_hook zon] r2)) as (s' & EV & SV' & HS); [unfold bare; cbn; congruence|reflexivity|exact S2|cbn; congruence|cbn; congruence|].
    exists s'. split; [|now split]. eapply lines_drop; [exact BA| |intros o w1 s1 RR|exact EV]; [unfold bare; cbn; congruence|].
    eapply re_drop; [exact E| | |exact RR]; [|cbn; congruence]. eapply as_stop; [|discriminate]. unfold zon_hook. rewrite bytes_eqb_refl. eapply do_zlib; [exact (E2 f2 (le_n _))|constructor].
  - destruct (LN r t zon u BA SV C L M) as (r' & f & S1 & (K1 & K2 & K3 & K4) & E & O). rewrite AF in S1.
    pose proof (se_zlib_twice _ _ _ SS r' x more 0 S1 NE) as E2.
    destruct (IH w (mkLreader [zon_hook zon] r')) as (s' & EV & SV' & HS); [unfold bare; cbn; congruence|reflexivity|exact S1|exact K1|exact K2|].
    exists s'. split; [|now split]. cbn [length app]. eapply lines_cons; [exact BA|eapply re_error; [exact E|]|exact EV].
    eapply as_stop; [|discriminate]. unfold zon_hook. rewrite bytes_eqb_refl. eapply do_zlib; [exact E2|constructor].
Qed.
End Reentry.
