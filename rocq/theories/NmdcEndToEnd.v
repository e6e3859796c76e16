(** From the NMDC message writer to the NMDC message reader. *)
From Verif Require Import Base BaseFacts NmdcText NmdcMessage SpecNmdc SpecFrame NmdcFrameFacts NmdcDecodeFacts
  LineReader SpecLine LineReaderFacts LineReaderStream LineReaderOps LineWriter SpecWriter LineWriterFacts LineWriterOps LineWriterFinal LineTransport
  NmdcReader SpecReader NmdcReaderFacts NmdcWriter SpecNmdcWriter NmdcWriterFacts.

(** ** Independence of the scratch buffer *)
Section Scratch.
Context {W dst : Type} (dinit : Z -> dst) (dstep : dst -> dop -> dst * list bytes) (junk : msg -> bytes).
Notation nwriter := (nwriter W dst).

Definition alike (a b : wout (option error * W * nwriter)) : Prop :=
  match a, b with
  | WRet (e, s, x), WRet (e', s', y) => e = e' /\ s = s' /\ same_writer x y
  | WPan, WPan => True
  | WStuck, WStuck => True
  | _, _ => False
  end.
Lemma same_refl (x : nwriter) : same_writer x x. Proof. now repeat split. Qed.
Lemma same_sym (x y : nwriter) : same_writer x y -> same_writer y x. Proof. intros (A & B & C). now repeat split. Qed.

Lemma nw_write_line_alike s d x y : same_writer x y -> alike (nw_write_line dstep s d x) (nw_write_line dstep s d y).
Proof.
  intros (E1 & E2 & E3). unfold nw_write_line. rewrite E1. destruct (write_line dstep s d (nw_line y)) as [[[e s'] w]| |]; cbn; auto.
  repeat split; assumption.
Qed.
Lemma write_each_alike enc : forall ms s x y, same_writer x y -> alike (write_each dstep junk enc s ms x) (write_each dstep junk enc s ms y).
Proof.
  induction ms as [|m ms IH]; intros s x y H; cbn [write_each]; [now cbn|].
  pose proof H as (E1 & E2 & E3). rewrite E3. destruct (run_msgs (nw_msg y) (s, m)) as [[s1 m1] [| |e]]; [|now cbn..].
  cbn [nw_mbuf with_mbuf]. destruct (marshal_to enc [] m1) as [b|e|]; [|now cbn|exact I].
  assert (HX : same_writer (with_mbuf b (with_mbuf [] x)) (with_mbuf b (with_mbuf [] y))) by (repeat split; assumption).
  pose proof (nw_write_line_alike s1 b _ _ HX) as L.
  destruct (nw_write_line dstep s1 b (with_mbuf b (with_mbuf [] x))) as [[[[e1|] s2] x2]| |];
    destruct (nw_write_line dstep s1 b (with_mbuf b (with_mbuf [] y))) as [[[[e1'|] s2'] y2]| |]; cbn in L; try contradiction; try exact I;
    destruct L as (L1 & L2 & L3); try discriminate; subst; [now cbn|]. now apply IH.
Qed.
Lemma run_nop_alike s o x y : same_writer x y -> alike (run_nop dinit dstep junk s o x) (run_nop dinit dstep junk s o y).
Proof.
  intros H. pose proof H as (E1 & E2 & E3). destruct o; cbn [run_nop].
  - unfold write_msg. rewrite E1, E2. destruct (wr_err (nw_line y)); [now cbn|]. now apply write_each_alike.
  - now apply nw_write_line_alike.
  - rewrite E1. destruct (flush dstep (nw_line y)) as [[e w]| |]; cbn; auto. repeat split; assumption.
  - cbn. repeat split; assumption.
  - unfold zon_level. pose proof (nw_write_line_alike s (B "$" ++ zon_name ++ B "|") _ _ H) as L.
    destruct (nw_write_line dstep s (B "$" ++ zon_name ++ B "|") x) as [[[[e1|] s2] x2]| |];
      destruct (nw_write_line dstep s (B "$" ++ zon_name ++ B "|") y) as [[[[e1'|] s2'] y2]| |]; cbn in L; try contradiction; try exact I;
      destruct L as (L1 & L2 & L3); try discriminate; subst; [now cbn|].
    destruct L3 as (F1 & F2 & F3). rewrite F1. destruct (enable_zlib_level dinit dstep lvl (nw_line y2)) as [[e w]| |]; cbn; auto. repeat split; assumption.
  - rewrite E1. destruct (disable_zlib dstep (nw_line y)) as [[e w]| |]; cbn; auto. repeat split; assumption.
Qed.
Theorem nruns_alike (s : W) (x : nwriter) h s' x' : nruns dinit dstep junk s x h s' x' -> forall y, same_writer x y ->
  exists y', nruns dinit dstep junk s y h s' y' /\ same_writer x' y'.
Proof.
  induction 1 as [s x|s x o e s1 x1 h s2 x2 Hr _ IH]; intros y H; [exists y; split; [constructor|exact H]|].
  pose proof (run_nop_alike s o x y H) as L. rewrite Hr in L. destruct (run_nop dinit dstep junk s o y) as [[[e' s'] y1]| |] eqn:E; try contradiction.
  destruct L as (<- & <- & L). destruct (IH y1 L) as (y' & K1 & K2). exists y'. split; [econstructor; eauto|exact K2].
Qed.
Theorem run_nop_alike_eq (s : W) o (x y : nwriter) e s' x' : same_writer x y -> run_nop dinit dstep junk s o x = WRet (e, s', x') ->
  exists y', run_nop dinit dstep junk s o y = WRet (e, s', y') /\ same_writer x' y'.
Proof.
  intros H E. pose proof (run_nop_alike s o x y H) as L. rewrite E in L.
  destruct (run_nop dinit dstep junk s o y) as [[[e1 s1] y1]| |]; try contradiction. destruct L as (<- & <- & L). eauto.
Qed.

(** A message that cannot be encoded. *)
Lemma bad_message (s : W) m ms (x : nwriter) s1 m1 e : wr_err (nw_line x) = None -> mverdict (nw_msg x) s m s1 m1 HPass -> marshal (nw_enc x) m1 = Err e ->
  exists x', write_msg dstep junk s (m :: ms) x = WRet (Some e, s1, x') /\ same_writer x x'.
Proof.
  intros He Hv Hm. unfold write_msg. rewrite He. cbn [write_each]. rewrite (verdict_run_msg _ _ _ _ _ _ Hv). cbn [nw_mbuf with_mbuf].
  unfold marshal in Hm. rewrite Hm. eexists. split; [reflexivity|]. now repeat split.
Qed.
(** Messages before it: the call continues as a call with the rest. *)
Lemma write_each_app enc rest : forall pre fs (s s1 : W) (x x1 : nwriter), wr_hooks (nw_line x) = [] -> write_each dstep junk enc s pre x = WRet (None, s1, x1) ->
  taken (nw_msg x) enc s pre fs s1 None -> length fs = length pre ->
  write_each dstep junk enc s (pre ++ rest) x = write_each dstep junk enc s1 rest x1.
Proof.
  induction pre as [|m pre IH]; intros fs s s1 x x1 Hh H T L; cbn [app write_each] in *.
  - now injection H as <- <-.
  - inversion T as [|? ? ? s2 m1 f fs' ? ? Hv Hm T'| | |]; subst; try discriminate.
    rewrite (verdict_run_msg _ _ _ _ _ _ Hv) in *. cbn [nw_mbuf with_mbuf] in *. unfold marshal in Hm. rewrite Hm in *.
    unfold nw_write_line in *. cbn [nw_line with_mbuf] in *.
    destruct (write_line dstep s2 f (nw_line x)) as [[[e2 s3] w2]| |] eqn:E; try discriminate.
    destruct (line_stateless dstep s2 s2 f _ _ _ _ Hh E) as (-> & _ & Hh2 & _). destruct e2 as [e2|]; [discriminate|].
    apply (IH fs' s2 s1 _ x1); auto.
Qed.
Lemma write_each_keeps enc : forall ms (s : W) (x : nwriter) e s1 x1, write_each dstep junk enc s ms x = WRet (e, s1, x1) -> nw_msg x1 = nw_msg x /\ nw_enc x1 = nw_enc x.
Proof.
  induction ms as [|m ms IH]; intros s x e s1 x1 H; cbn [write_each] in H; [now injection H as <- <- <-|].
  destruct (run_msgs (nw_msg x) (s, m)) as [[s2 m1] [| |e1]]; [|now injection H as <- <- <-..].
  destruct (marshal_to enc _ m1) as [b|e1|]; [|now injection H as <- <- <-|discriminate].
  unfold nw_write_line in H. destruct (write_line dstep s2 b _) as [[[[e2|] s3] w2]| |]; try discriminate; [now injection H as <- <- <-|].
  apply IH in H. exact H.
Qed.
Lemma bad_in_batch (s : W) pre fs m post (x : nwriter) s1 x1 s2 m2 e : wr_hooks (nw_line x) = [] -> wr_err (nw_line x) = None ->
  write_msg dstep junk s pre x = WRet (None, s1, x1) -> taken (nw_msg x) (nw_enc x) s pre fs s1 None -> length fs = length pre ->
  mverdict (nw_msg x) s1 m s2 m2 HPass -> marshal (nw_enc x) m2 = Err e ->
  exists x2, write_msg dstep junk s (pre ++ m :: post) x = WRet (Some e, s2, x2) /\ same_writer x1 x2.
Proof.
  intros Hh He H T L Hv Hm. unfold write_msg in *. rewrite He in *.
  rewrite (write_each_app _ (m :: post) pre fs s s1 x x1 Hh H T L). destruct (write_each_keeps _ _ _ _ _ _ _ H) as [K1 K2].
  cbn [write_each]. rewrite K1, (verdict_run_msg _ _ _ _ _ _ Hv). cbn [nw_mbuf with_mbuf]. unfold marshal in Hm. rewrite Hm.
  eexists. split; [reflexivity|]. now repeat split.
Qed.
End Scratch.

(** ** What arrives on the connection *)
Section Arrives.
Context {W dst : Type} (dinit : Z -> dst) (dstep : dst -> dop -> dst * list bytes) (junk : msg -> bytes).

Lemma explained_line_ops (hs : list (W * msg -> (W * msg) * hook_res)) enc s h ops s' : explained hs enc s h ops s' -> Forall no_switch h -> Forall line_op ops.
Proof.
  induction 1 as [|enc s ms fs s1 e h ops s2 T _ IH| | | | |]; intros Hn; [constructor|..];
    inversion Hn as [|? ? Hn1 Hn2]; subst; try contradiction Hn1; try (constructor; [exact I|]); try (apply IHexplained; exact Hn2).
  apply Forall_app. split; [|apply IH; exact Hn2]. apply Forall_forall. intros o Ho. apply in_map_iff in Ho. destruct Ho as (f & <- & _). exact I.
Qed.
Lemma explained_flush (hs : list (W * msg -> (W * msg) * hook_res)) enc s h e ops s' : explained hs enc s (h ++ [(NFlush, e)]) ops s' ->
  exists ops1, explained hs enc s h ops1 s' /\ ops = ops1 ++ [OFlush] /\ e = None.
Proof.
  revert enc s ops. induction h as [|[o e0] h IH]; intros enc s ops H.
  - cbn [app] in H. inversion H as [| | |? ? ? ops1 ? H1 | | |]; subst. inversion H1; subst. exists []. split; [constructor|auto].
  - cbn [app] in H. inversion H; subst;
      match goal with H1 : explained _ _ _ (h ++ _) _ _ |- _ => destruct (IH _ _ _ H1) as (ops1 & K1 & K2 & K3) end; subst.
    + eexists (map OLine fs ++ ops1). rewrite app_assoc. split; [econstructor; eauto|auto].
    + exists (OLine (B "|") :: ops1). split; [now constructor|auto].
    + exists (OFlush :: ops1). split; [now constructor|auto].
    + exists ops1. split; [now constructor|auto].
    + exists (OLine (B "$ZOn|") :: OEnable lvl :: ops1). split; [now constructor|auto].
    + exists (ODisable :: ops1). split; [now constructor|auto].
Qed.
Lemma no_switch_ok h : Forall no_switch h -> Forall switch_ok h.
Proof. apply Forall_impl. intros [[] e]; cbn; auto; contradiction. Qed.
Lemma done_forall (P : wop -> Prop) ops : Forall P ops -> Forall (fun r => P (fst r)) (done ops).
Proof. induction 1; constructor; auto. Qed.

Theorem arrives script size tmo enc (hs : list (W * msg -> (W * msg) * hook_res)) s0 h s x :
  nruns dinit dstep junk s0 (nfresh script size tmo enc hs) h s x -> Forall no_switch h -> wr_err (nw_line x) = None ->
  exists ops pending, explained hs enc s0 h ops s /\ concat (op_lines ops) = delivered (cn_trace (wr_conn (nw_line x))) ++ pending /\
    (forall h' e, h = h' ++ [(NFlush, e)] -> pending = []).
Proof.
  intros H Hn He. destruct (nfresh_reached dinit dstep junk script size tmo enc hs s0 h s x H He (no_switch_ok _ Hn)) as (ops & K1 & K2 & _).
  pose proof (explained_line_ops _ _ _ _ _ _ K1 Hn) as Hl.
  destruct (in_order dinit dstep _ _ _ _ _ _ _ _ _ _ K2 (line_data _ (done_forall _ _ Hl)) He) as (pending & P1 & P2).
  exists ops, pending. split; [exact K1|]. split; [exact P1|]. intros h' e ->.
  destruct (explained_flush _ _ _ _ _ _ _ K1) as (ops1 & _ & -> & _). rewrite done_app in P2. exact (P2 _ 0 eq_refl).
Qed.

(** Hooks that drop nothing: everything is written. *)
Lemma taken_all (hs : list (W * msg -> (W * msg) * hook_res)) enc s ms fs s' : taken hs enc s ms fs s' None -> never_dropping hs ->
  exists ms', Forall2 (fun m m' => as_left hs (Some m) (Some m')) ms ms' /\ Forall2 (fun m f => marshal enc m = Ok f) ms' fs.
Proof.
  intros H Hd. remember None as e eqn:He. revert He.
  induction H as [|? ? ? s1 m1 ? ? ? ? Hv Hm _ IH|? ? ? ? ? Hv| |]; intros He; try discriminate.
  - exists []. split; constructor.
  - destruct (IH He) as (ms' & K1 & K2). exists (m1 :: ms'). split; constructor; auto. cbn. eauto.
  - exfalso. exact (Hd _ _ _ _ Hv).
Qed.
Definition item_line (enc : codec) (it : option msg) (f : bytes) : Prop := match it with None => f = B "|" | Some m => marshal enc m = Ok f end.
Lemma explained_all (hs : list (W * msg -> (W * msg) * hook_res)) enc s h ops s' : explained hs enc s h ops s' -> never_dropping hs ->
  Forall (fun r => snd r = None) h -> Forall no_switch h -> Forall same_encoder h ->
  exists its, Forall2 (as_left hs) (nop_items h) its /\ Forall2 (item_line enc) its (op_lines ops).
Proof.
  intros H Hd. induction H; intros He Hz Hs; [exists []; split; constructor|..];
    inversion He as [|? ? He1 He2]; subst; inversion Hz as [|? ? Hz1 Hz2]; subst; inversion Hs as [|? ? Hs1 Hs2]; subst; try contradiction Hs1; try contradiction Hz1;
    destruct (IHexplained He2 Hz2 Hs2) as (its & J1 & J2).
  - cbn in He1. subst e. rewrite op_lines_app, op_lines_map. cbn [nop_items flat_map fst]. apply taken_all in H; [|exact Hd]. destruct H as (ms' & L1 & L2).
    exists (map Some ms' ++ its). split; apply Forall2_app; auto.
    + clear - L1. induction L1; cbn [map]; constructor; auto.
    + clear - L2. induction L2; cbn [map]; constructor; auto.
  - exists (None :: its). cbn [nop_items flat_map fst op_lines app]. split; constructor; auto; reflexivity.
  - exists its. auto.
Qed.

(** Hooks that pass everything and messages that can be encoded: no call fails. *)
Lemma taken_fine (hs : list (W * msg -> (W * msg) * hook_res)) enc s ms fs s' e : taken hs enc s ms fs s' e -> forall g, passing g hs ->
  Forall (fun m => exists f, marshal enc (g m) = Ok f) ms -> e = None.
Proof.
  intros H g Hp. induction H as [|? ? ? ? ? ? ? ? ? ? ? _ IH| |? ? ? ? ? ? Hv|? ? ? ? ? ? Hv Hm]; intros Hm'; auto; inversion Hm' as [|? ? Hm1 Hm2]; subst; auto.
  - apply Hp in Hv. destruct Hv. discriminate.
  - apply Hp in Hv. destruct Hv as [_ ->]. destruct Hm1 as [f Hf]. congruence.
Qed.
Lemma passing_never (hs : list (W * msg -> (W * msg) * hook_res))  g : passing g hs -> never_dropping hs.
Proof. intros H s m s' m' K. apply H in K. destruct K. discriminate. Qed.
Lemma passing_left (hs : list (W * msg -> (W * msg) * hook_res)) g : passing g hs -> forall l l', Forall2 (as_left hs) l l' -> l' = map (option_map g) l.
Proof.
  intros H l l' K. induction K as [|a b l l' K _ IH]; [reflexivity|]. cbn [map]. f_equal; [|exact IH].
  destruct a as [m|], b as [m'|]; try contradiction; [|reflexivity]. destruct K as (s & s' & K). apply H in K. cbn. f_equal. exact (proj2 K).
Qed.
Lemma explained_fine (hs : list (W * msg -> (W * msg) * hook_res)) enc s h ops s' g : explained hs enc s h ops s' -> passing g hs -> Forall same_encoder h ->
  Forall (fun it => exists f, item_line enc (option_map g it) f) (nop_items h) -> Forall (fun r => snd r = None) h.
Proof.
  intros H Hp. induction H as [|enc s ms fs s1 e h ops s2 T _ IH|enc s h ops s2 _ IH|enc s h ops s2 _ IH|enc enc' s h ops s2 _ IH|enc s lvl h ops s2 _ IH|enc s h ops s2 _ IH];
    intros Hs Hi; [constructor|..]; inversion Hs as [|? ? Hs1 Hs2]; subst; try contradiction Hs1; cbn [nop_items flat_map fst app] in Hi; constructor; cbn; auto.
  - apply Forall_app in Hi. destruct Hi as [Hi _]. eapply taken_fine; [exact T|exact Hp|].
    apply Forall_forall. intros m Hm. rewrite Forall_forall in Hi. exact (Hi (Some m) (in_map _ _ _ Hm)).
  - apply Forall_app in Hi. apply IH; [exact Hs2|exact (proj2 Hi)].
  - inversion Hi; subst. auto.
Qed.

Lemma sends_item enc dec limit it f : sends enc dec limit it f -> item_line enc it f.
Proof.
  intros H. destruct it as [m|]; cbn; [|now inversion H]. inversion H as [|? p ? Hw Hs Hf]; subst. change (SpecCommand.command m) with (msg_type m) in Hf.
  destruct (marshal_to_frame enc [] m p (wire_encodes _ _ _ _ Hw)) as (g & G1 & G2).
  - inversion Hf; subst; [right; assumption|left; congruence..].
  - unfold marshal. rewrite G2. cbn [app]. f_equal. exact (framed_unique _ _ _ _ G1 Hf).
Qed.
Lemma item_line_unique enc : forall its fs gs, Forall2 (item_line enc) its fs -> Forall2 (item_line enc) its gs -> fs = gs.
Proof.
  induction its as [|it its IH]; intros fs gs H1 H2; inversion H1; inversion H2; subst; [reflexivity|]. f_equal; [|auto].
  destruct it; cbn in *; congruence.
Qed.

Lemma sends_lines enc dec limit : forall items fs, Forall2 (sends enc dec limit) items fs -> Forall (is_line "|"%byte) fs.
Proof.
  induction 1 as [|it f items fs H _ IH]; constructor; auto. destruct it as [m|].
  - destruct (sends_line _ _ _ _ _ H) as (q & _ & _ & _ & K). exact K.
  - inversion H; subst. exists []. auto.
Qed.

Theorem written_items script size tmo enc dec limit (hs : list (W * msg -> (W * msg) * hook_res)) s0 h s x fs e g :
  nruns dinit dstep junk s0 (nfresh script size tmo enc hs) (h ++ [(NFlush, e)]) s x -> Forall no_switch h -> Forall same_encoder h ->
  wr_err (nw_line x) = None -> passing g hs -> Forall2 (sends enc dec limit) (items_as g h) fs ->
  delivered (cn_trace (wr_conn (nw_line x))) = concat fs /\ Forall (fun r => snd r = None) h.
Proof.
  intros H Hn Hs He Hp Hi.
  assert (Hn' : Forall no_switch (h ++ [(NFlush, e)])) by (apply Forall_app; split; [exact Hn|repeat constructor]).
  destruct (arrives _ _ _ _ _ _ _ _ _ H Hn' He) as (ops & pending & K1 & K2 & K3). rewrite (K3 h e eq_refl), app_nil_r in K2.
  destruct (explained_flush _ _ _ _ _ _ _ K1) as (ops1 & L1 & -> & _).
  assert (Hl : Forall2 (item_line enc) (items_as g h) fs) by (clear - Hi; induction Hi; constructor; eauto using sends_item).
  assert (Hf : Forall (fun it => exists f, item_line enc (option_map g it) f) (nop_items h)).
  { apply Forall_map with (P := fun it => exists f, item_line enc it f). fold (items_as g h). clear - Hl. induction Hl; constructor; eauto. }
  pose proof (explained_fine _ _ _ _ _ _ _ L1 Hp Hs Hf) as Hr.
  destruct (explained_all _ _ _ _ _ _ L1 (passing_never _ _ Hp) Hr Hn Hs) as (its & Ha0 & Ha). rewrite (passing_left _ _ Hp _ _ Ha0) in Ha.
  rewrite op_lines_app in K2. cbn [op_lines flat_map] in K2. rewrite app_nil_r in K2.
  pose proof (item_line_unique _ _ _ _ Ha Hl) as Hu. unfold op_lines in K2, Hu. rewrite Hu in K2. auto.
Qed.
End Arrives.

(** ** Reading a part of the stream, up to a message *)
Section Leads.
Context {W zstate : Type} (act : zstate -> zaction zstate) (zinit : zstate).
Notation reader := (reader W zstate).

Inductive leads : reader -> list bytes -> reader -> Prop :=
| ld_nil r : leads r [] r
| ld_line r l r1 ls r' : gives act r (LLine l) r1 -> leads r1 ls r' -> leads r (l :: ls) r'.

Lemma leads_through c r' : forall ls s r s' ls', leads r ls r' -> through c ls s = (LReturn None, s', ls') ->
  exists r1 f0, leads r1 ls' r' /\ forall f g, f0 <= f -> f0 <= g -> read_to act f g c s r = Some (LReturn None, s', r1).
Proof.
  induction ls as [|l ls IH]; intros s r s' ls' H T; cbn [through] in T; [discriminate|].
  inversion H as [|? ? r1 ? ? K1 K2]; subst. destruct (K1 (rs_w s)) as [f0 Hf].
  destruct (process_line c l s) as [[|e|] s1] eqn:E; [| |discriminate].
  - destruct (IH s1 r1 s' ls' K2 T) as (r2 & f1 & L1 & L2). exists r2, (S (Nat.max f0 f1)). split; [exact L1|].
    intros f g M1 M2. destruct f as [|f]; [lia|]. cbn [read_to]. rewrite Hf by lia. rewrite with_w_same, E. apply L2; lia.
  - injection T as -> <- <-. exists r1, (S f0). split; [exact K2|]. intros f g M1 M2. destruct f as [|f]; [lia|]. cbn [read_to].
    rewrite Hf by lia. now rewrite with_w_same, E.
Qed.

Variables (enc dec : codec) (c : ncfg W) (g : W -> W).
Hypothesis Hraw : nc_raw c = [].
Hypothesis Hmsg : forall w m, run_msgs (nc_msg c) (w, m) = ((w, m), HPass).
Hypothesis Hka : match nc_keep_alive c with None => forall w, g w = w | Some f => forall w, f w = (g w, None) end.

Lemma kept_all items : kept (fun _ => false) items = messages items.
Proof. unfold kept. induction (messages items) as [|m l IH]; [reflexivity|]. cbn [filter negb]. f_equal. exact IH. Qed.
Lemma alike_none l : drops_alike (fun _ => false) None l.
Proof. induction l as [|m l IH]; [exact I|]. cbn [drops_alike]. split; [exact I|exact IH]. Qed.

(** All messages of a stream that ends with a message, and not a byte more. *)
Theorem leads_msgs : forall n items m fs w r r', n = length (messages items) -> Forall2 (sends enc dec (nc_max_cmd c)) (items ++ [Some m]) fs -> leads r fs r' ->
  eventually (fun f => read_msgs act f (S n) w (mkNreader r dec c) =
    Some (map (fun m => Ok (Some m)) (messages items ++ [m]), Nat.iter (keep_alives items) g w, mkNreader r' dec c)).
Proof.
  induction n as [n IH] using (well_founded_induction Wf_nat.lt_wf). intros items m fs w r r' Hn H L.
  pose proof (through_sends enc dec c (fun _ => false) g Hraw Hmsg Hka (items ++ [Some m]) fs None w dec H (alike_none _)) as T. cbn [prev_slot] in T.
  rewrite kept_all in T.
  assert (HM : forall a b, messages (a ++ b) = messages a ++ messages b) by (induction a as [|[y|] a IHa]; intros b; cbn; rewrite ?IHa; reflexivity).
  assert (HK : forall a b, keep_alives (a ++ b) = keep_alives a + keep_alives b) by (induction a as [|[y|] a IHa]; intros b; cbn; rewrite ?IHa; reflexivity).
  rewrite HM in T. cbn [messages app] in T.
  destruct (messages items ++ [m]) as [|m1 ms] eqn:EM; [destruct (messages items); discriminate|].
  destruct T as (fs2 & i1 & i2 & T & E1 & E2 & E3 & _). rewrite kept_all in E2. injection E2 as E2.
  destruct (leads_through c r' _ _ _ _ _ L T) as (r1 & f0 & L1 & L2).
  assert (R1 : eventually (fun f => read_msg act f w (mkNreader r dec c) = Some (Ok (Some m1), Nat.iter (keep_alives i1) g w, mkNreader r1 dec c))).
  { exists f0. intros f Hf. unfold read_msg, read_call. cbn [nr_dec nr_cfg nr_line]. rewrite L2 by lia. reflexivity. }
  destruct i2 as [|it i2' _] using rev_ind.
  - cbn [messages] in E2. subst ms. rewrite app_nil_r in E1.
    assert (N0 : n = 0). { assert (LL : length (messages items ++ [m]) = 1) by (rewrite EM; reflexivity). rewrite app_length in LL. cbn in LL. lia. }
    clear Hn IH. rewrite N0. inversion E3; subst. inversion L1; subst. assert (K : keep_alives items = keep_alives (items ++ [Some m])) by (rewrite HK; cbn; lia). rewrite K.
    apply (read_msgs_cons act 0 _ _ _ _ _ _ _ _ R1). exists 0. reflexivity.
  - rewrite app_assoc in E1. apply app_inj_tail in E1. destruct E1 as [E1 <-]. subst items.
    rewrite HM in E2. cbn [messages app] in E2. subst ms. rewrite HM in EM, Hn.
    assert (LN : length (messages i1) = 1).
    { assert (X : length ((messages i1 ++ messages i2') ++ [m]) = length (m1 :: messages i2' ++ [m])) by (now rewrite EM).
      cbn [length] in X. rewrite !app_length in X. lia. }
    rewrite app_length in Hn. destruct n as [|n]; [lia|].
    assert (R2 := IH n (Nat.lt_succ_diag_r n) i2' m fs2 (Nat.iter (keep_alives i1) g w) r1 r' ltac:(lia) E3 L1).
    cbn [map]. rewrite HK. replace (Nat.iter (keep_alives i1 + keep_alives i2') g w) with (Nat.iter (keep_alives i2') g (Nat.iter (keep_alives i1) g w)) by (symmetry; rewrite Nat.add_comm; generalize (keep_alives i2'); induction n0 as [|k IHk]; [reflexivity|]; change (g (Nat.iter (k + keep_alives i1) g w) = g (Nat.iter k g (Nat.iter (keep_alives i1) g w))); now rewrite IHk). apply (read_msgs_cons act (S n) _ _ _ _ _ _ _ _ R1). exact R2.
Qed.

Lemma feeds_leads (w0 : W) st : forall ls n r rest, feeds act st [] n r (concat ls ++ rest) -> rd_open r = true -> rd_hooks r = [] ->
  Forall (is_line (rd_delim r)) ls -> Forall (fun l => within (rd_max r) (length l)) ls ->
  exists n' r', leads r ls r' /\ feeds act st [] n' r' rest /\ same_cfg r r' /\ (rd_zlib_on r = false -> rd_zlib_on r' = false).
Proof.
  induction ls as [|l ls IH]; intros n r rest Hf Ho Hh Hl Hw.
  - exists n, r. split; [constructor|]. split; [exact Hf|]. split; [apply same_cfg_refl|auto].
  - cbn [concat] in Hf. rewrite <- app_assoc in Hf. inversion Hl as [|? ? Hl1 Hl2]; subst. inversion Hw as [|? ? Hw1 Hw2]; subst.
    destruct (loop_line act st [] n r _ [] l (concat ls ++ rest) Hf eq_refl Hl1) as (m' & r1 & K1 & K2 & K3 & K4 & K5); [easy|exact Hw1|].
    pose proof K3 as (G1 & G2 & G3 & G4).
    destruct (IH m' r1 rest K1) as (n' & r' & L1 & L2 & L3 & L4); try congruence; rewrite ?G1, ?G2; try assumption.
    assert (HR : forall w, rl act w [] r (LLine l, w, r1)) by (intros w; apply K5; rewrite Hh; reflexivity).
    exists n', r'. split; [|split; [exact L2|split]].
    + eapply ld_line; [|exact L1]. apply rl_gives; assumption.
    + eapply same_cfg_trans; eassumption.
    + intros Hz. apply L4. exact (rl_mode act _ _ _ _ _ _ (HR w0) Hz).
Qed.
End Leads.

(** ** Compression in the middle of the stream *)
Section Zlib.
Context {W dst W' zstate : Type} (dinit : Z -> dst) (dstep : dst -> dop -> dst * list bytes) (junk : msg -> bytes).
Context (act : zstate -> zaction zstate) (zinit : zstate).

Lemma op_sections_lines : forall ops a cur, Forall line_op ops -> op_sections ops (a, cur) = (a, extend cur (concat (op_lines ops))).
Proof.
  assert (E1 : forall cur, extend cur [] = cur) by (intros [d|l d]; cbn; now rewrite app_nil_r).
  assert (E2 : forall cur a b, extend (extend cur a) b = extend cur (a ++ b)) by (intros [d|l d] a b; cbn; now rewrite app_assoc).
  induction ops as [|o ops IH]; intros a cur H; [cbn; now rewrite E1|]. inversion H as [|? ? H1 H2]; subst. destruct o; try contradiction; cbn [op_sections advance fst snd].
  - rewrite IH by assumption. cbn [op_lines flat_map app concat]. now rewrite E2.
  - rewrite E1. now rewrite IH.
Qed.
Lemma explained_app (hs : list (W * msg -> (W * msg) * hook_res)) h2 : forall h1 enc s ops s', explained hs enc s (h1 ++ h2) ops s' -> Forall same_encoder h1 ->
  exists ops1 s1 ops2, explained hs enc s h1 ops1 s1 /\ explained hs enc s1 h2 ops2 s' /\ ops = ops1 ++ ops2.
Proof.
  induction h1 as [|[o e] h1 IH]; intros enc s ops s' H Hs; [exists [], s, ops; split; [constructor|auto]|].
  inversion Hs as [|? ? Hs1 Hs2]; subst. cbn [app] in H. inversion H; subst; try contradiction Hs1;
    match goal with K : explained _ _ _ (h1 ++ h2) _ _ |- _ => destruct (IH _ _ _ _ K Hs2) as (o1 & t1 & o2 & K1 & K2 & K3) end; subst.
  - exists (map OLine fs ++ o1), t1, o2. rewrite app_assoc. split; [econstructor; eauto|auto].
  - exists (OLine (B "|") :: o1), t1, o2. split; [now constructor|auto].
  - exists (OFlush :: o1), t1, o2. split; [now constructor|auto].
  - exists (OLine (B "$ZOn|") :: OEnable lvl :: o1), t1, o2. split; [now constructor|auto].
  - exists (ODisable :: o1), t1, o2. split; [now constructor|auto].
Qed.
Lemma explained_lines (hs : list (W * msg -> (W * msg) * hook_res)) enc dec limit s h ops s' fs g : explained hs enc s h ops s' -> passing g hs ->
  Forall no_switch h -> Forall same_encoder h -> Forall2 (sends enc dec limit) (items_as g h) fs -> op_lines ops = fs /\ Forall line_op ops.
Proof.
  intros H Hp Hn Hs Hi. split; [|eapply explained_line_ops; eauto].
  assert (Hl : Forall2 (item_line enc) (items_as g h) fs) by (clear - Hi; induction Hi; constructor; eauto using sends_item).
  assert (Hf : Forall (fun it => exists f, item_line enc (option_map g it) f) (nop_items h)).
  { apply Forall_map with (P := fun it => exists f, item_line enc it f). fold (items_as g h). clear - Hl. induction Hl; constructor; eauto. }
  destruct (explained_all _ _ _ _ _ _ H (passing_never _ _ Hp) (explained_fine _ _ _ _ _ _ _ H Hp Hs Hf) Hn Hs) as (its & Ha0 & Ha).
  rewrite (passing_left _ _ Hp _ _ Ha0) in Ha. exact (item_line_unique _ _ _ _ Ha Hl).
Qed.

Theorem zlib_end_to_end script size tmo enc dec (cfg : ncfg W') (g : W' -> W') (hs : list (W * msg -> (W * msg) * hook_res)) ed s0 h1 lvl h2 h3 e1 e2 e3 s x f1 f2 f3 maxline c w n :
  matching act zinit dinit dstep -> (-2 <= lvl <= 9)%Z -> Forall honest script ->
  nruns dinit dstep junk s0 (nfresh script size tmo enc hs) (h1 ++ (NZOn lvl, e1) :: h2 ++ (NZOff, e2) :: h3 ++ [(NFlush, e3)]) s x ->
  e1 = None -> e2 = None -> Forall no_switch (h1 ++ h2 ++ h3) -> Forall same_encoder (h1 ++ h2 ++ h3) -> wr_err (nw_line x) = None -> passing ed hs ->
  Forall2 (sends enc dec (nc_max_cmd cfg)) ((items_as ed h1) ++ [Some (MNoArgs KZOn)]) (f1 ++ [B "$ZOn|"]) ->
  Forall2 (sends enc dec (nc_max_cmd cfg)) (items_as ed h2) f2 -> Forall2 (sends enc dec (nc_max_cmd cfg)) (items_as ed h3) f3 ->
  Forall (fun l => within maxline (length l)) (f1 ++ B "$ZOn|" :: f2 ++ f3) -> within maxline 1 ->
  Forall solid c -> script_data c = delivered (cn_trace (wr_conn (nw_line x))) ->
  nc_raw cfg = [] -> nc_msg cfg = [] -> nc_keep_alive cfg = Some (fun w => (g w, None)) ->
  exists r1 r2 w2 R2,
    eventually (fun f => read_msgs act f (S (length (messages (items_as ed h1)))) w (nreader_on maxline dec cfg c) =
      Some (map (fun m => Ok (Some m)) (messages (items_as ed h1) ++ [MNoArgs KZOn]), Nat.iter (keep_alives (items_as ed h1)) g w, mkNreader r1 dec cfg)) /\
    eventually (fun f => enable_zlib act zinit f r1 = Some (ROk tt, r2)) /\
    eventually (fun f => read_msgs act f n (Nat.iter (keep_alives (items_as ed h1)) g w) (mkNreader r2 dec cfg) =
      Some (msgs_then_eof n (messages ((items_as ed h2) ++ (items_as ed h3))), w2, R2)).
Proof.
  intros Hm Hlvl Hh H -> -> Hn Hs He Hp Hi1 Hi2 Hi3 Hw Hw1 Hc Hd Hraw Hmsg Hka.
  apply Forall_app in Hn. destruct Hn as [Hn1 Hn]. apply Forall_app in Hn. destruct Hn as [Hn2 Hn3].
  apply Forall_app in Hs. destruct Hs as [Hs1 Hs]. apply Forall_app in Hs. destruct Hs as [Hs2 Hs3].
  assert (Hz : Forall switch_ok (h1 ++ (NZOn lvl, None) :: h2 ++ (NZOff, None) :: h3 ++ [(NFlush, e3)])).
  { apply Forall_app. split; [now apply no_switch_ok|]. constructor; [cbn; auto|]. apply Forall_app. split; [now apply no_switch_ok|].
    constructor; [reflexivity|]. apply Forall_app. split; [now apply no_switch_ok|repeat constructor]. }
  destruct (nfresh_reached dinit dstep junk _ _ _ _ _ _ _ _ _ H He Hz) as (ops & K1 & K2 & _).
  destruct (explained_app _ _ _ _ _ _ _ K1 Hs1) as (o1 & t1 & o2 & X1 & X2 & ->).
  inversion X2 as [| | | | |? ? ? ? o2' ? X2' |]; subst.
  destruct (explained_app _ _ _ _ _ _ _ X2' Hs2) as (o3 & t2 & o4 & Y1 & Y2 & ->).
  inversion Y2 as [| | | | | |? ? ? o4' ? Y2']; subst.
  destruct (explained_flush _ _ _ _ _ _ _ Y2') as (o5 & Z1 & -> & ->).
  assert (Hi1' : Forall2 (sends enc dec (nc_max_cmd cfg)) (items_as ed h1) f1).
  { apply Forall2_app_inv_l in Hi1. destruct Hi1 as (a & b & A1 & A2 & A3). inversion A2 as [|? ? ? ? _ A4]; subst. inversion A4; subst. apply app_inj_tail in A3. now destruct A3 as [-> _]. }
  destruct (explained_lines _ _ _ _ _ _ _ _ _ _ X1 Hp Hn1 Hs1 Hi1') as [L1 M1].
  destruct (explained_lines _ _ _ _ _ _ _ _ _ _ Y1 Hp Hn2 Hs2 Hi2) as [L2 M2].
  destruct (explained_lines _ _ _ _ _ _ _ _ _ _ Z1 Hp Hn3 Hs3 Hi3) as [L3 M3].
  assert (HS : op_sections (o1 ++ OLine (B "$ZOn|") :: OEnable lvl :: o3 ++ ODisable :: o5 ++ [OFlush]) ([], SPlain []) =
    ([SPlain (concat (f1 ++ [B "$ZOn|"])); SZlib lvl (concat f2)], SPlain (concat f3))).
  { rewrite op_sections_app, op_sections_lines by assumption. cbn [op_sections advance fst snd]. rewrite op_sections_app, op_sections_lines by assumption.
    cbn [op_sections advance fst snd]. rewrite op_sections_app, op_sections_lines by assumption. cbn [op_sections advance fst snd app extend].
    rewrite L1, L2, L3, concat_app. cbn [concat]. now rewrite !app_nil_r. }
  rewrite HS in K2.
  assert (HN : Forall no_failure (done (o1 ++ OLine (B "$ZOn|") :: OEnable lvl :: o3 ++ ODisable :: o5 ++ [OFlush]))).
  { assert (G : forall o, Forall line_op o -> Forall no_failure (done o)).
    { induction 1 as [|y l Hy _ IH]; constructor; auto. destruct y; cbn; auto; contradiction. }
    rewrite done_app. apply Forall_app. split; [auto|]. cbn [done map]. constructor; [exact I|]. constructor; [exact Hlvl|].
    change (Forall no_failure (done (o3 ++ ODisable :: o5 ++ [OFlush]))). rewrite done_app. apply Forall_app. split; [auto|]. cbn [done map]. constructor; [exact I|].
    change (Forall no_failure (done (o5 ++ [OFlush]))). rewrite done_app. apply Forall_app. split; [auto|]. constructor; [exact I|constructor]. }
  destruct (sections dinit dstep _ _ _ _ _ _ _ _ _ _ Hh K2 HN He) as (_ & base & cur & flushed & pending & R & Ro & E & Hdl & Hpd).
  assert (pending = []) as ->.
  { apply (Hpd (done (o1 ++ OLine (B "$ZOn|") :: OEnable lvl :: o3 ++ ODisable :: o5)) 0).
    change [(OFlush, (0, None))] with (done [OFlush]). rewrite <- done_app. f_equal. rewrite <- app_assoc. cbn [app]. do 3 f_equal. now rewrite <- app_assoc. }
  cbn [fst snd] in *. destruct R as (bs & R & ->). inversion R as [|? b1 ? bs1 R1 Rt]; subst. inversion Rt as [|? b2 ? bs2 R2 Rt2]; subst. inversion Rt2; subst.
  inversion R1; subst. inversion R2 as [|? ops Hno Hq1 Hq2]; subst.
  assert (flushed = concat (op_lines o5)) as ->.
  { inversion Ro; subst; cbn in E; [|discriminate]. injection E as E. now rewrite app_nil_r in E. }
  set (z := snd (deflate dstep (dinit lvl) (ops ++ [DClose]))) in *.
  set (l1 := op_lines o1 ++ [B "$ZOn|"]) in *. set (l2 := op_lines o3) in *. set (l3 := op_lines o5) in *.
  assert (Hsd : script_data c = concat l1 ++ z ++ concat l3) by (rewrite Hd, Hdl; cbn; now rewrite app_nil_r, <- !app_assoc).
  assert (HL1 : Forall (is_line "|"%byte) l1) by (eapply sends_lines; exact Hi1).
  assert (HL2 : Forall (is_line "|"%byte) (l2 ++ l3)) by (apply Forall_app; split; eapply sends_lines; eassumption).
  assert (HW1 : Forall (fun l => within maxline (length l)) l1).
  { unfold l1. apply Forall_app in Hw. destruct Hw as [A1 A2]. inversion A2; subst. apply Forall_app. split; [assumption|now constructor]. }
  assert (HW2 : Forall (fun l => within maxline (length l)) (l2 ++ l3)).
  { apply Forall_app in Hw. destruct Hw as [A1 A2]. now inversion A2; subst. }
  destruct (limited_feeds act (W:=W') Solid maxline [] c [] "|"%byte) as [mm Hmm].
  { revert Hc. apply Forall_impl. intros [d e] K. exact K. }
  rewrite app_nil_r, Hsd in Hmm. destruct (limited_fields (W:=W') (zstate:=zstate) maxline [] c "|"%byte) as (E1 & E2 & E3 & _ & _ & E6 & _ & E8).
  destruct (feeds_leads act w Solid l1 mm _ (z ++ concat l3) Hmm E3 E8) as (m1 & r1 & J1 & J2 & J3 & J4); rewrite ?E1, ?E2; auto.
  pose proof J3 as (C1 & C2 & C3 & C4).
  destruct (enable_zlib_ok act zinit r1 m1 z (written ops) (concat l3)) as (r2 & P1 & P2 & P3 & P4); [congruence|auto|exact J2|exact (Hm lvl ops Hlvl Hno)|].
  pose proof P3 as (D1 & D2 & D3 & D4). destruct (P2 Lax) as [m2 Hm2].
  assert (Hda : written ops ++ concat l3 = concat (l2 ++ l3) ++ []) by (rewrite concat_app, app_nil_r; f_equal; congruence).
  rewrite Hda in Hm2.
  assert (HSu : supplies act r2 (l2 ++ l3)).
  { apply (feeds_supplies act Lax (l2 ++ l3) m2 r2 [] Hm2).
    - congruence.
    - congruence.
    - rewrite D1, C1, E1. exact HL2.
    - easy.
    - rewrite D2, C2, E2. exact HW2.
    - rewrite D2, C2, E2. exact Hw1. }
  assert (HI : Forall2 (sends enc dec (nc_max_cmd cfg)) ((items_as ed h2) ++ (items_as ed h3)) (l2 ++ l3)) by (apply Forall2_app; assumption).
  destruct (stream_filtered act enc dec cfg (fun _ => false) g Hraw) with (n := n) (items := (items_as ed h2) ++ (items_as ed h3)) (fs := l2 ++ l3)
    (w := Nat.iter (keep_alives (items_as ed h1)) g w) (r := r2) as (w2 & R2' & Q1 & _); auto.
  { intros v m. rewrite Hmsg. reflexivity. }
  { rewrite Hka. reflexivity. }
  { apply alike_none. }
  rewrite kept_all in Q1.
  exists r1, r2, w2, R2'. split; [|split; [exact P1|exact Q1]].
  apply (leads_msgs act enc dec cfg g Hraw) with (fs := l1); auto.
  - intros v m. rewrite Hmsg. reflexivity.
  - rewrite Hka. reflexivity.
Qed.
End Zlib.
