(** Writer and reader together. *)
From Verif Require Import Base BaseFacts LineReader SpecLine LineReaderStream LineReaderOps LineWriter SpecWriter
  LineWriterFacts LineWriterOps LineWriterFinal.

Section Transport.
Context {W dst : Type} (dinit : Z -> dst) (dstep : dst -> dop -> dst * list bytes).
Context {W' Z' : Type} (act : Z' -> zaction Z') (zinit : Z').

Lemma line_data h : Forall (fun r : wop * (nat * option error) => line_op (fst r)) h -> Forall (fun r => data_op (fst r)) h.
Proof. apply Forall_impl. intros [[] ?]; cbn; auto. Qed.

Lemma history_hooks (script : list wresp) size hs tmo (s0 : W) h acc x s w :
  history dinit dstep (fresh script size hs tmo) s0 h acc x s w -> Forall (fun r => line_op (fst r)) h -> wr_err w = None ->
  wr_hooks w = hs.
Proof.
  intros H Hl He. destruct (fresh_fields (W:=W) (dst:=dst) script size hs tmo) as (_&_&F3&_&_&_&_&F8). rewrite <- F8.
  eapply (history_good dinit dstep); [apply fresh_good|exact H|exact He|]. left. split; [exact F3|now apply line_data].
Qed.

Lemma history_lines (script : list wresp) size tmo (s0 : W) h acc x s w :
  history dinit dstep (fresh script size [] tmo) s0 h acc x s w -> Forall (fun r => line_op (fst r)) h -> wr_err w = None ->
  acc = concat (lines_in h).
Proof.
  intros H Hl He. induction H as [|h acc x s w o n e s' w' d H IH Hr Ha]; [reflexivity|].
  apply Forall_app in Hl. destruct Hl as [Hl Ho]. inversion Ho as [|? ? Ho' _]; subst. cbn in Ho'.
  assert (He0 : wr_err w = None) by (eapply err_sticky; eauto).
  rewrite (history_hooks _ _ _ _ _ _ _ _ _ _ H Hl He0) in Ha.
  rewrite (IH Hl He0). unfold lines_in. rewrite flat_map_app, concat_app. cbn. f_equal.
  assert (Hd : d = match o with OLine l => l | _ => [] end).
  { destruct o; try contradiction; inversion Ha as [? ? ? Hv|? ? ? Hv|? ? ? | | | | |]; subst; auto; [inversion Hv|].
    exfalso. apply failure_sticks in Hr; [congruence|exact I]. }
  rewrite Hd. destruct o; cbn; now rewrite ?app_nil_r.
Qed.

Theorem transport (script : list wresp) size tmo (s0 : W) h n0 acc x s w delim c (v : W') n :
  history dinit dstep (fresh script size [] tmo) s0 (h ++ [(OFlush, (n0, None))]) acc x s w ->
  Forall (fun r => line_op (fst r)) h -> wr_err w = None -> Forall (is_line delim) (lines_in h) ->
  Forall quiet c -> script_data c = delivered (cn_trace (wr_conn w)) ->
  exists r', eventually (fun f =>
    read_lines act f n v (set_max_line 0 (new_reader c delim)) = Some (then_eof n (map LLine (lines_in h)) [], v, r')).
Proof.
  intros H Hl He Hi Hq Hc. set (h1 := h ++ [(OFlush, (n0, None))]) in *.
  assert (Hl1 : Forall (fun r => line_op (fst r)) h1) by (apply Forall_app; split; [exact Hl|repeat constructor]).
  pose proof (history_lines _ _ _ _ _ _ _ _ _ H Hl1 He) as Ha.
  destruct (in_order dinit dstep _ _ _ _ _ _ _ _ _ _ H (line_data _ Hl1) He) as (pending & P1 & P2).
  rewrite (P2 h n0 eq_refl), app_nil_r in P1.
  assert (Hli : lines_in h1 = lines_in h) by (unfold h1, lines_in; rewrite flat_map_app; cbn; now rewrite app_nil_r).
  rewrite Hli in Ha. apply framing; [exact Hq|]. split; [rewrite app_nil_r; congruence|]. split; [exact Hi|easy].
Qed.

Theorem transport_zlib (script : list wresp) size hs tmo (s0 : W) h n0 acc s w delim limit c (v : W') lvl l1 l2 l3 :
  matching act zinit dinit dstep -> (-2 <= lvl <= 9)%Z -> Forall honest script ->
  history dinit dstep (fresh script size hs tmo) s0 (h ++ [(OFlush, (n0, None))]) acc
    ([SPlain (concat l1); SZlib lvl (concat l2)], SPlain (concat l3)) s w ->
  Forall no_failure h -> wr_err w = None -> Forall (is_line delim) l1 ->
  Forall (fun l => within limit (length l)) l1 ->
  Forall solid c -> script_data c = delivered (cn_trace (wr_conn w)) ->
  exists r1 r2,
    eventually (fun f => read_lines act f (length l1) v (limited limit [] c delim) = Some (map LLine l1, v, r1)) /\
    eventually (fun f => enable_zlib act zinit f r1 = Some (ROk tt, r2)) /\
    delivers act r2 (concat (l2 ++ l3)) /\ rd_delim r2 = delim /\ rd_max r2 = limit /\ rd_hooks r2 = [].
Proof.
  intros Hm Hlvl Hh H Hn He Hi Hw Hs Hc.
  assert (Hn1 : Forall no_failure (h ++ [(OFlush, (n0, None))])) by (apply Forall_app; split; [exact Hn|repeat constructor]).
  destruct (sections dinit dstep _ _ _ _ _ _ _ _ _ _ Hh H Hn1 He) as (_ & base & cur & flushed & pending & R & Ro & E & Hd & Hp).
  rewrite (Hp h n0 eq_refl) in E. cbn [fst snd] in *.
  destruct R as (bs & R & ->). inversion R as [|? b1 ? bs1 R1 Rt]; subst. inversion Rt as [|? b2 ? bs2 R2 Rt2]; subst. inversion Rt2; subst.
  inversion R1; subst. inversion R2 as [|? ops Hno Hq1 Hq2]; subst.
  assert (flushed = concat l3) as ->.
  { inversion Ro; subst; cbn in E; [|discriminate]. injection E as E. now rewrite app_nil_r in E. }
  destruct (zlib_switch act zinit delim limit c l1 (snd (deflate dstep (dinit lvl) (ops ++ [DClose]))) (written ops) (concat l3) v)
    as (r1 & r2 & K1 & K2 & K3 & K4 & K5 & K6 & _); auto.
  { rewrite Hc, Hd. cbn. now rewrite app_nil_r, <- !app_assoc. }
  exists r1, r2. rewrite concat_app. match goal with E : written ops = _ |- _ => rewrite <- E end. auto 8.
Qed.
End Transport.
