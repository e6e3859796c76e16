(** Proofs for property C119. *)
From Verif Require Import Base BaseFacts LineReader SpecLine LineReaderFacts LineReaderStream SpecSession LineSession NmdcText NmdcMessage NmdcReader SpecReader NmdcReaderFacts SpecCalls NmdcCallFacts.
From Verif Require Import AdcValue AdcMessage AdcPacket SpecAdc SpecAdcMessage AdcReader SpecAdcReader AdcEndToEnd SpecAdcStream AdcStreamFacts SpecAcross.
From Coq Require Import Lia.

Section Across.
Context {W Z : Type} (act : Z -> zaction Z) (zinit : Z).
Notation rd := (reader W Z).

Lemma keeps_refl (r : rd) : keeps r r. Proof. now repeat split. Qed.
Lemma keeps_trans (a b c : rd) : keeps a b -> keeps b c -> keeps a c.
Proof. unfold keeps. intros (A & B & C & D) (E & F & G & H). repeat split; congruence. Qed.

Lemma ahead_next (r r' : rd) t l ls rest : keeps r r' -> lines_ahead r t (l :: ls) rest -> lines_ahead r' (after (length l) t) ls rest.
Proof.
  intros (K1 & K2 & _ & _) (C & F & N & G & G2). cbn [concat] in C. rewrite <- app_assoc in C. inversion F; subst. inversion G; subst. unfold lines_ahead. rewrite K1, K2, contents_after, C, skipn_app, Nat.sub_diag, skipn_all. auto.
Qed.
Lemma on_next (r : rd) t l ls left : goes_on act zinit r (after (length l) t) ls left -> goes_on act zinit r t (l :: ls) left.
Proof.
  destruct left as [ls'|]; [|exact (fun H => H)]. intros (used & -> & H). exists (l :: used). split; [reflexivity|]. rewrite after_after in H. cbn [concat]. now rewrite app_length.
Qed.
Lemma ahead_left (r r' : rd) t ls rest ls' used : keeps r r' -> lines_ahead r t ls rest -> ls = used ++ ls' -> lines_ahead r' (after (length (concat used)) t) ls' rest.
Proof.
  revert r t ls. induction used as [|l used IH]; intros r t ls K A ->.
  - cbn [concat length]. destruct K as (K1 & K2 & _ & _), A as (C & F & N & G & G2). unfold lines_ahead. rewrite K1, K2, contents_after, C. cbn [skipn app]. auto.
  - cbn [app] in A. apply (ahead_next r r _ _ _ _ (keeps_refl r)) in A. cbn [concat]. rewrite app_length, <- after_after. now apply (IH r (after (length l) t) (used ++ ls')).
Qed.
Lemma on_left (r : rd) t ls ls1 used left : ls = used ++ ls1 -> goes_on act zinit r (after (length (concat used)) t) ls1 left -> goes_on act zinit r t ls left.
Proof.
  intros ->. destruct left as [ls'|]; [|exact (fun H => H)]. intros (u & -> & H). exists (used ++ u). split; [apply app_assoc|]. rewrite after_after in H. now rewrite concat_app, app_length.
Qed.

(** ReadLine. *)
Definition got_line (rest : bytes) (g : got) : line_out := match g with GLine l _ => LLine l | GErr e _ => LErr None e | GEnd => LErr (Some rest) EEOF end.
(** The lines behind it. *)
Definition got_left (g : got) : option (list bytes) := match g with GLine _ ls | GErr _ ls => Some ls | GEnd => None end.
Lemma serves_line : forall ls (r : rd) t rest (w : W), serves act zinit r t -> lines_ahead r t ls rest ->
  exists g w' r', gets (rd_hooks r) w ls w' g /\ keeps r r' /\ goes_on act zinit r' t ls (got_left g) /\
    eventually (fun f => read_line act f w r = Some (got_line rest g, w', r')).
Proof.
  pose proof (serves_session (W := W) act zinit) as SS.
  induction ls as [|l ls IH]; intros r t rest w H A.
  - destruct A as (C & F & N & G & G2). cbn [concat app] in C. destruct (se_rest _ _ _ SS r t w H) as (r' & S' & K & E); [now rewrite C|now rewrite C|].
    exists GEnd, w, r'. split; [constructor|]. split; [exact K|]. split; [exact S'|]. cbn [got_line]. now rewrite <- C.
  - pose proof A as (C & F & N & G & G2). cbn [concat] in C. rewrite <- app_assoc in C. inversion F as [|? ? F1 F2]; subst. inversion G as [|? ? G3 G4]; subst.
    pose proof (run_verdict (rd_hooks r) w l) as V. destruct (run_hooks (rd_hooks r) w l) as [w1 v]. cbn [fst snd] in V.
    destruct (se_line _ _ _ SS r t l (concat ls ++ rest) w w1 v H C F1 G3 V) as (r1 & S1 & K1 & E1).
    assert (ONE : serves act zinit r1 (after (length (concat [l])) t)) by (cbn [concat]; now rewrite app_nil_r).
    destruct v as [| |e].
    + exists (GLine l ls), w1, r1. split; [now constructor|]. split; [exact K1|]. split; [exists [l]; now split|exact E1].
    + destruct (IH r1 (after (length l) t) rest w1 S1 (ahead_next r r1 t l ls rest K1 A)) as (g & w' & r' & Gt & K2 & O & E2).
      exists g, w', r'. split; [apply (ge_drop _ _ _ _ w1); [exact V|]; destruct K1 as (_ & _ & _ & Kh); now rewrite <- Kh|]. split; [now apply (keeps_trans r r1)|]. split; [now apply on_next|now apply E1].
    + exists (GErr e ls), w1, r1. split; [now constructor|]. split; [exact K1|]. split; [exists [l]; now split|exact E1].
Qed.

(** ** NMDC *)
Section Nmdc.
Variable c : ncfg W.
Hypothesis TY : typed c.

Lemma loop_says : forall n ls, length ls <= n -> forall s tg (r : rd) t rest, serves act zinit r t -> lines_ahead r t ls rest -> rd_delim r = "|"%byte -> holds s tg -> target_sized tg ->
  exists x s' v tg' left r' f0, nmdc_call (rd_hooks r) c (view s tg) ls v (view s' tg') left /\ agrees x v s' tg' /\ v <> VNext /\ holds s' tg' /\ shape tg tg' /\
    keeps r r' /\ goes_on act zinit r' t ls left /\ forall f g, f0 <= f -> f0 <= g -> read_to act f g c s r = Some (x, s', r').
Proof.
  induction n as [|n IH]; intros ls Ln s tg r t rest H A D HO SZ; destruct (serves_line ls r t rest (rs_w s) H A) as (g & w' & r1 & Gt & K1 & O & [f0 E]).
  all: assert (E2 : forall f g0, f0 <= g0 -> read_to act (S f) g0 c s r = match g with GLine l _ => match process_line c l (with_w w' s) with (LSkip, s') => read_to act f g0 c s' r1 | (x, s') => Some (x, s', r1) end
      | GErr e _ => Some (LReturn (Some e), with_w w' s, r1) | GEnd => Some (LReturn (Some EEOF), with_w w' s, r1) end) by (intros f g0 L; cbn [read_to]; rewrite E by exact L; now destruct g).
  all: assert (STOP : forall e v left, g = GEnd /\ e = EEOF /\ left = None \/ (exists l, g = GErr e l /\ left = Some l) -> v = VErr e ->
    exists x s' v tg' left r' f0, nmdc_call (rd_hooks r) c (view s tg) ls v (view s' tg') left /\ agrees x v s' tg' /\ v <> VNext /\ holds s' tg' /\ shape tg tg' /\
    keeps r r' /\ goes_on act zinit r' t ls left /\ forall f g, f0 <= f -> f0 <= g -> read_to act f g c s r = Some (x, s', r')).
  1,3: intros e v left J ->; exists (LReturn (Some e)), (with_w w' s), (VErr e), tg, left, r1, (S f0);
    (split; [destruct J as [(-> & -> & ->)|(l & -> & ->)]; [exact (nc_end _ c (view s tg) ls w' Gt)|exact (nc_error _ c (view s tg) ls w' e l Gt)]|]); (split; [reflexivity|]); (split; [discriminate|]);
    (split; [exact HO|]); (split; [apply shape_refl|]); (split; [exact K1|]); (split; [destruct J as [(-> & -> & ->)|(l & -> & ->)]; exact O|]);
    intros f g0 L1 L2; destruct f as [|f]; [lia|]; rewrite E2 by lia; destruct J as [(-> & -> & _)|(l & -> & _)]; reflexivity.
  all: destruct g as [l ls1|e ls1|]; [|apply (STOP e (VErr e) (Some ls1)); [right; now exists ls1|reflexivity]|apply (STOP EEOF (VErr EEOF) None); [now left|reflexivity]].
  - destruct ls; [inversion Gt|cbn in Ln; lia].
  - destruct O as (used & EU & S1). assert (NU : used <> []) by (intros ->; cbn in EU; subst ls; clear - Gt; remember (GLine l ls1) as g; assert (X : forall w ls w' g, gets (rd_hooks r) w ls w' g -> match g with GLine _ r => length r < length ls | _ => True end) by (induction 1; cbn; auto; destruct g0; lia); specialize (X _ _ _ _ Gt); subst g; lia).
    pose proof (ahead_left r r1 t ls rest ls1 used K1 A EU) as A1. assert (LL : length ls1 <= n) by (subst ls; rewrite app_length in Ln; destruct used; [contradiction|cbn in Ln; lia]).
    assert (IL : is_line "|"%byte l).
    { rewrite <- D. destruct A as (_ & F & _). clear - Gt F. remember (GLine l ls1) as g. revert l ls1 Heqg F. induction Gt; intros; try discriminate; inversion F; subst; [congruence|eauto]. }
    destruct (process_handles c TY l (with_w w' s) tg IL) as (x & s1 & v & tg1 & P & HA & AG & HO1 & SZ1 & SH1); [destruct tg; exact HO|exact SZ|].
    change (view (with_w w' s) tg) with (now (view s tg) w') in HA. rewrite P in E2. destruct x as [|e|].
    + destruct v; try contradiction. destruct (IH ls1 LL s1 tg1 r1 _ rest S1 A1 ltac:(destruct K1 as (-> & _); exact D) HO1 SZ1) as (x & s2 & v & tg2 & left & r2 & f1 & NC & AG2 & NV & HO2 & SH2 & K2 & O2 & R2).
      exists x, s2, v, tg2, left, r2, (S (Nat.max f0 f1)). split; [apply (nc_next _ c (view s tg) ls w' l ls1 (view s1 tg1)); [exact Gt|exact HA|destruct K1 as (_ & _ & _ & Kh); now rewrite <- Kh]|].
      split; [exact AG2|]. split; [exact NV|]. split; [exact HO2|]. split; [now apply (shape_trans _ tg1)|]. split; [now apply (keeps_trans r r1)|]. split; [now apply (on_left _ _ _ ls1 used)|].
      intros f g0 M1 M2. destruct f as [|f]; [lia|]. rewrite E2 by lia. apply R2; lia.
    + assert (NV : v <> VNext) by (intros ->; destruct e; contradiction). exists (LReturn e), s1, v, tg1, (Some ls1), r1, (S f0).
      split; [now apply (nc_done _ c (view s tg) ls w' l ls1)|]. split; [exact AG|]. split; [exact NV|]. split; [exact HO1|]. split; [exact SH1|]. split; [exact K1|]. split; [now exists used|].
      intros f g0 M1 M2. destruct f as [|f]; [lia|]. now rewrite E2 by lia.
    + assert (NV : v <> VNext) by (intros ->; contradiction). exists LCrash, s1, v, tg1, (Some ls1), r1, (S f0).
      split; [now apply (nc_done _ c (view s tg) ls w' l ls1)|]. split; [exact AG|]. split; [exact NV|]. split; [exact HO1|]. split; [exact SH1|]. split; [exact K1|]. split; [now exists used|].
      intros f g0 M1 M2. destruct f as [|f]; [lia|]. now rewrite E2 by lia.
Qed.

Lemma nmdc_across k ls w dec (r : rd) t rest : serves act zinit r t -> lines_ahead r t ls rest -> rd_delim r = "|"%byte -> call_sized k -> k <> CAny [] ->
  exists v s left o r', nmdc_call (rd_hooks r) c (mkAt w dec dec (call_target k)) ls v s left /\ SpecCalls.answers k v (al_target s) o /\ keeps r r' /\ goes_on act zinit r' t ls left /\
    eventually (fun f => do_call act f k w (mkNreader r dec c) = Some (o, al_w s, mkNreader r' (al_kept s) c)).
Proof.
  intros HS A D SZ NE.
  set (o0 := match k with CInto m => SOwn m | _ => SNil end). set (al0 := match k with CAny ms => ms | _ => [] end).
  set (s0 := mkRs w dec dec o0 al0).
  assert (H0 : holds s0 (call_target k)) by (destruct k as [|m|ms]; cbn; auto; split; [congruence|reflexivity]).
  assert (Z0 : target_sized (call_target k)) by (destruct k as [|m|ms]; cbn; auto; split; [congruence|exact SZ]).
  destruct (loop_says _ ls (le_n _) s0 (call_target k) r t rest HS A D H0 Z0) as (x & s' & v & tg' & left & r' & f0 & OC & AG & NV & HO & SH & K & GO & K2).
  assert (RC : forall f, f0 <= f -> read_call act f o0 al0 w (mkNreader r dec c) = Some (x, s', mkNreader r' (rs_set s') c)).
  { intros f L. unfold read_call. cbn [nr_cfg nr_dec nr_line]. fold s0. now rewrite K2 by lia. }
  assert (ANS : exists o, SpecCalls.answers k v tg' o /\ forall f, f0 <= f -> do_call act f k w (mkNreader r dec c) = Some (o, rs_w s', mkNreader r' (rs_set s') c)).
  { destruct k as [|m|ms]; cbn [call_target shape] in SH; unfold o0, al0 in RC.
    - destruct tg' as [o|]; [|contradiction]. destruct HO as [_ HO]. assert (SM : slot_msg s' = o) by (unfold slot_msg; rewrite HO; now destruct o).
      exists (RNew (match x with LReturn None => Ok o | LReturn (Some e) => Err e | _ => Panic end)). split.
      + constructor. destruct x as [|[e|]|], v; cbn in AG; try contradiction; try subst e; constructor.
      + intros f L. cbn [do_call]. unfold read_msg. rewrite RC by exact L. rewrite SM. destruct x as [|[e|]|]; reflexivity.
    - destruct tg' as [[m'|]|]; try contradiction. destruct HO as [_ HO]. assert (SM : slot_msg s' = Some m') by (unfold slot_msg; now rewrite HO).
      exists (RInto (match x with LReturn None => Ok tt | LReturn (Some e) => Err e | _ => Panic end) m'). split.
      + constructor. destruct x as [|[e|]|], v; cbn in AG; try contradiction; try subst e; constructor.
      + intros f L. cbn [do_call]. unfold read_msg_to. rewrite RC by exact L. now rewrite SM.
    - destruct tg' as [|ms']; try contradiction. destruct HO as [_ HO].
      exists (RAny (match x with LReturn None => Ok (match rs_slot s' with SAllowed i => Some i | _ => None end) | LReturn (Some e) => Err e | _ => Panic end) ms'). split.
      + constructor. destruct x as [|[e|]|], v; cbn in AG; try contradiction; try subst e; try rewrite AG; constructor.
      + intros f L. cbn [do_call]. unfold read_msg_any. destruct ms as [|m0 ms0]; [congruence|]. rewrite RC by exact L. now rewrite HO. }
  destruct ANS as (o & A1 & A2). exists v, (view s' tg'), left, o, r'. repeat (split; auto). exists f0. exact A2.
Qed.
End Nmdc.

(** ** ADC *)
Section Adc.
Variables (pf : bytes -> float_result) (keep : option (W -> W * option error)) (k : rcall).

Lemma gets_less (hs : list (hook W)) w ls w' g : gets hs w ls w' g -> match g with GLine _ r => length r < length ls | _ => True end.
Proof. induction 1; cbn; auto. destruct g; lia. Qed.
Lemma gets_line (hs : list (hook W)) d w ls w' g : gets hs w ls w' g -> Forall (is_line d) ls -> match g with GLine l _ => is_line d l | _ => True end.
Proof. induction 1; intros F; try exact Logic.I; inversion F; subst; [assumption|now apply IHgets]. Qed.
Lemma respond_err e : respond pf k (Err e) = failed k e. Proof. now destruct k. Qed.

Lemma packet_says : forall n ls, length ls <= n -> forall w (r : rd) t rest, serves act zinit r t -> lines_ahead r t ls rest -> rd_delim r = x0a ->
  exists x w' left r' f0, adc_call (rd_hooks r) pf keep k w ls (respond pf k x) w' left /\ keeps r r' /\ goes_on act zinit r' t ls left /\ forall f g, f0 <= f -> f0 <= g -> next_packet act f g keep w r = Some (x, w', r').
Proof.
  induction n as [|n IH]; intros ls Ln w r t rest H A D; destruct (serves_line ls r t rest w H A) as (g & w' & r1 & Gt & K1 & O & [f0 E]).
  all: assert (END : g = GEnd -> exists x w' left r' f0, adc_call (rd_hooks r) pf keep k w ls (respond pf k x) w' left /\ keeps r r' /\ goes_on act zinit r' t ls left /\
    forall f g, f0 <= f -> f0 <= g -> next_packet act f g keep w r = Some (x, w', r')).
  1,3: intros ->; exists (Err EEOF), w', None, r1, (S f0); rewrite respond_err; (split; [now apply ac_end|]); (split; [exact K1|]); (split; [exact O|]);
    intros f g L1 L2; destruct f as [|f]; [lia|]; cbn [next_packet]; now rewrite E by lia.
  all: assert (ERR : forall e ls1, g = GErr e ls1 -> exists x w' left r' f0, adc_call (rd_hooks r) pf keep k w ls (respond pf k x) w' left /\ keeps r r' /\ goes_on act zinit r' t ls left /\
    forall f g, f0 <= f -> f0 <= g -> next_packet act f g keep w r = Some (x, w', r')).
  1,3: intros e ls1 ->; exists (Err e), w', (Some ls1), r1, (S f0); rewrite respond_err; (split; [now apply ac_error|]); (split; [exact K1|]); (split; [exact O|]);
    intros f g L1 L2; destruct f as [|f]; [lia|]; cbn [next_packet]; now rewrite E by lia.
  all: destruct g as [l ls1|e ls1|]; [|now apply (ERR e ls1)|now apply END].
  - apply gets_less in Gt. lia.
  - pose proof (gets_less _ _ _ _ _ Gt) as LT. cbn in LT. destruct O as (used & EU & S1). pose proof (ahead_left r r1 t ls rest ls1 used K1 A EU) as A1.
    assert (IL : is_line x0a l) by (rewrite <- D; destruct A as (_ & F & _); exact (gets_line _ _ _ _ _ _ Gt F)).
    assert (E2 : forall f g, f0 <= g -> next_packet act (S f) g keep w r = if (1 <? length l)%nat then Some (Ok l, w', r1) else match keep with None => next_packet act f g keep w' r1
      | Some q => match q w' with (w2, Some e) => Some (Err e, w2, r1) | (w2, None) => next_packet act f g keep w2 r1 end end).
    { intros f g L. cbn [next_packet]. rewrite E by exact L. cbn [got_line]. now rewrite (nl_ends l IL). }
    pose proof (keep_line pf l IL) as KL. rewrite (nl_keep l IL) in KL. destruct (1 <? length l)%nat eqn:Q.
    + exists (Ok l), w', (Some ls1), r1, (S f0). split; [apply (ac_line _ _ _ _ _ _ _ l); [exact Gt|intros ->; discriminate Q|exact (call_about pf k l)]|].
      split; [exact K1|]. split; [now exists used|]. intros f g L1 L2. destruct f as [|f]; [lia|]. now rewrite E2 by lia.
    + assert (l = [x0a]) as -> by now apply KL. assert (LL : length ls1 <= n) by lia.
      assert (NEXT : forall w2, on_keep keep w' = (w2, None) -> (forall f g, f0 <= g -> next_packet act (S f) g keep w r = next_packet act f g keep w2 r1) ->
        exists x w' left r' f0, adc_call (rd_hooks r) pf keep k w ls (respond pf k x) w' left /\ keeps r r' /\ goes_on act zinit r' t ls left /\
        forall f g, f0 <= f -> f0 <= g -> next_packet act f g keep w r = Some (x, w', r')).
      { intros w2 OK N. destruct (IH ls1 LL w2 r1 _ rest S1 A1 ltac:(destruct K1 as (-> & _); exact D)) as (x & w3 & left & r2 & f1 & AC & K2 & O2 & R2).
        exists x, w3, left, r2, (S (Nat.max f0 f1)). split; [apply (ac_keep _ _ _ _ _ _ w' ls1 w2); [exact Gt|exact OK|destruct K1 as (_ & _ & _ & Kh); now rewrite <- Kh]|].
        split; [now apply (keeps_trans r r1)|]. split; [now apply (on_left _ _ _ ls1 used)|]. intros f g M1 M2. destruct f as [|f]; [lia|]. rewrite N by lia. apply R2; lia. }
      destruct keep as [q|] eqn:KQ.
      * destruct (q w') as [w2 [e|]] eqn:QW.
        -- exists (Err e), w2, (Some ls1), r1, (S f0). rewrite respond_err. split; [now apply (ac_keep_error _ _ _ _ _ _ w')|]. split; [exact K1|]. split; [now exists used|].
           intros f g L1 L2. destruct f as [|f]; [lia|]. now rewrite E2 by lia.
        -- apply (NEXT w2 QW). intros f g L. now rewrite E2 by lia.
      * apply (NEXT w' eq_refl). intros f g L. now rewrite E2 by lia.
Qed.

Lemma adc_across ls w (r : rd) t rest : serves act zinit r t -> lines_ahead r t ls rest -> rd_delim r = x0a ->
  exists a w' left r', adc_call (rd_hooks r) pf keep k w ls a w' left /\ keeps r r' /\ goes_on act zinit r' t ls left /\
    eventually (fun f => run_rcall act pf f k w (mkAreader r keep) = Some (a, w', mkAreader r' keep)).
Proof.
  intros H A D. destruct (packet_says _ ls (le_n _) w r t rest H A D) as (x & w' & left & r' & f0 & AC & K & O & E).
  exists (respond pf k x), w', left, r'. split; [exact AC|]. split; [exact K|]. split; [exact O|]. exists f0. intros f L.
  exact (respond_call act pf f k w (mkAreader r keep) _ _ _ (E f f L L)).
Qed.
End Adc.
End Across.
