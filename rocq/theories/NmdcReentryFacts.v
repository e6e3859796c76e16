(** Proofs about the NMDC message reader with callbacks that use the line reader. *)
From Verif Require Import Base BaseFacts NmdcText NmdcChat NmdcMessage LineReader LineReentry SpecLine LineReaderStream LineSession LineFuel SpecSession SpecReentry LineReentryFacts.
From Verif Require Import NmdcReader SpecReader NmdcReaderFacts SpecStream SpecCalls NmdcProgram NmdcForeign SpecForeign NmdcForeignFacts NmdcReentry SpecNmdcReentry.

Section Reentry.
Context {W A Z : Type} (act : Z -> zaction Z) (zinit : Z).
Notation lr := (@lreader (env W) Z).
Notation ev := SpecLine.eventually.
Variable M : rmethods (W * lr) A.
Hypothesis Mlaw : lawful M.

Lemma n_line_takes f (s : env (W * lr)) o s' : n_line act zinit f s = Some (o, s') -> takes_line act zinit s o s'.
Proof.
  destruct s as [[w L] dec]. unfold n_line, takes_line. destruct (re_read_line act zinit f (w, dec) (lr_tidy L)) as [[[o1 [w1 dec1]] L1]|] eqn:E; [|discriminate].
  intros [= <- <-]. cbn [fst snd]. eapply line_reads; [|exact E]. reflexivity.
Qed.
Lemma takes_n_line (s : env (W * lr)) o s' : takes_line act zinit s o s' -> ev (fun f => n_line act zinit f s = Some (o, s')).
Proof.
  destruct s as [[w L] dec], s' as [[w' L'] dec']. unfold takes_line. cbn [fst snd]. intro R. destruct (reads_line act zinit _ _ _ _ _ R) as [f E]; [reflexivity|].
  exists f. intros g G. unfold n_line. now rewrite E.
Qed.

Section Calls.
Variable c : fcfg (W * lr) A.
Lemma n_read_says rl : forall f (x : fstate (W * lr) A) g y x', gholds x g -> n_read act zinit M f rl c x = Some (y, x') ->
  exists ls v g', n_lines act zinit M c (fs_env x) (fs_dec x) g ls v (fs_env x') g' /\ fagrees y v x' g' /\ v <> VNext /\ gholds x' g' /\ gshape g g'.
Proof.
  induction f as [|f IH]; intros x g y x' H E; [discriminate|]. cbn [n_read] in E.
  destruct (n_line act zinit rl (fs_env x)) as [[[l|o e|] s1]|] eqn:RL; [| | |discriminate]; apply n_line_takes in RL.
  - assert (H1 : gholds (f_env s1 x) g) by (destruct g; exact H). destruct (f_line_says M Mlaw c l (f_env s1 x) g H1) as (y1 & x2 & v & g2 & P & LI & AG & HO & SH). rewrite P in E. cbn [f_env fs_env fs_dec] in LI.
    destruct y1 as [|e1|].
    + destruct v; try contradiction. destruct (IH x2 g2 y x' HO E) as (ls & v & g' & L2 & AG2 & NV & HO2 & SH2).
      exists (l :: ls), v, g'. split; [eapply nl_next; eassumption|]. repeat (split; auto). now apply (gshape_trans _ g2).
    + injection E as <- <-. assert (NV : v <> VNext) by (intros ->; destruct e1; contradiction). exists [l], v, g2. split; [eapply nl_last; eassumption|]. auto.
    + injection E as <- <-. assert (NV : v <> VNext) by (intros ->; contradiction). exists [l], v, g2. split; [eapply nl_last; eassumption|]. auto.
  - injection E as <- <-. exists [], (VErr e), g. split; [eapply nl_error; exact RL|]. split; [reflexivity|]. split; [discriminate|]. split; [destruct g; exact H|apply gshape_refl].
  - injection E as <- <-. exists [], VCrash, g. split; [apply nl_panic; exact RL|]. split; [exact I|]. split; [discriminate|]. split; [destruct g; exact H|apply gshape_refl].
Qed.

Lemma n_call_says f k s o s1 : k <> FAny [] -> (forall d, k <> FSetDec d) -> n_call act zinit M f c k s = Some (o, s1) ->
  exists ls v g, n_lines act zinit M c s (snd s) (call_goal k) ls v s1 g /\ replies k v g o.
Proof.
  intros NE NS E. destruct k as [|a|l|d]; [| | |now contradiction (NS d)]; cbn [n_call call_goal] in E |- *.
  - destruct (n_read act zinit M f f c _) as [[y x]|] eqn:R; [|discriminate]. injection E as <- <-. apply (n_read_says f f _ (GOne None)) in R as (ls & v & g' & L & AG & NV & HO & SH); [|split; reflexivity].
    exists ls, v, g'. split; [exact L|]. destruct g' as [o|]; [|contradiction]. destruct HO as [_ HO]. assert (SM : f_msg x = o) by (unfold f_msg; rewrite HO; now destruct o). rewrite SM.
    constructor. destruct y as [|[e|]|], v; cbn in AG; try contradiction; try subst e; constructor.
  - destruct (n_read act zinit M f f c _) as [[y x]|] eqn:R; [|discriminate]. injection E as <- <-. apply (n_read_says f f _ (GOne (Some a))) in R as (ls & v & g' & L & AG & NV & HO & SH); [|split; reflexivity].
    exists ls, v, g'. split; [exact L|]. destruct g' as [[a'|]|]; try contradiction. destruct HO as [_ HO]. assert (SM : f_msg x = Some a') by (unfold f_msg; now rewrite HO). rewrite SM.
    constructor. destruct y as [|[e|]|], v; cbn in AG; try contradiction; try subst e; constructor.
  - destruct l as [|a0 l]; [contradiction|]. destruct (n_read act zinit M f f c _) as [[y x]|] eqn:R; [|discriminate]. injection E as <- <-.
    apply (n_read_says f f _ (GMany (a0 :: l))) in R as (ls & v & g' & L & AG & NV & HO & SH); [|split; [discriminate|reflexivity]].
    exists ls, v, g'. split; [exact L|]. destruct g' as [|l']; try contradiction. destruct HO as [_ HO]. rewrite HO.
    constructor. destruct y as [|[e|]|], v; cbn in AG; try contradiction; try subst e; try rewrite AG; constructor.
Qed.

Theorem n_calls_say f : forall ks s os s', n_calls act zinit M f c ks s = Some (os, s') ->
  exists h, n_reading act zinit M c s h s' /\ map (fun x => fst (fst x)) h = ks /\ map snd h = os.
Proof.
  induction ks as [|k ks IH]; intros s os s' E.
  - injection E as <- <-. exists []. split; [constructor|]. split; reflexivity.
  - cbn [n_calls] in E. destruct (n_call act zinit M f c k s) as [[o s1]|] eqn:K; [|discriminate]. destruct (n_calls act zinit M f c ks s1) as [[os2 s2]|] eqn:KS; [|discriminate]. injection E as <- <-.
    destruct (IH s1 _ _ KS) as (h & RG & E1 & E2).
    assert (D : k = FAny [] \/ (exists d, k = FSetDec d) \/ (k <> FAny [] /\ forall d, k <> FSetDec d)).
    { destruct k as [| |[|]|d]; eauto; right; right; split; try discriminate; intros; discriminate. }
    destruct D as [->|[[d ->]|[N1 N2]]].
    + cbn [n_call] in K. injection K as <- <-. exists ((FAny [], [], FRAny Panic []) :: h). split; [now constructor|]. cbn. rewrite E1, E2. split; reflexivity.
    + cbn [n_call] in K. injection K as <- <-. destruct s as [w dec]. exists ((FSetDec d, [], FRSet) :: h). split; [now constructor|]. cbn. rewrite E1, E2. split; reflexivity.
    + destruct (n_call_says f k s o s1 N1 N2 K) as (ls & v & g & L & RP). exists ((k, ls, o) :: h). split; [eapply ng_call; eassumption|]. cbn. rewrite E1, E2. split; reflexivity.
Qed.
End Calls.


(** ** $ZOn *)
Variable limit : BinInt.Z.
Hypothesis pure : stateless M.
(** The program's configuration. *)
Definition zcfg (zf : nat) : fcfg (W * lr) A := mkFcfg limit None [zon_raw act zinit zf] None None [].

Lemma zon_says zf l (x : fstate (W * lr) A) : zon_line l -> f_line M (zcfg zf) l x =
  match zon_raw act zinit zf (fs_env x) (Some (B "ZOn")) [] with
  | (s, HErr e) => (LReturn (Some e), f_env s x)
  | (s, HDrop) => (LSkip, f_env s x)
  | (s, HPass) => (LSkip, x)
  end.
Proof.
  intros (body & d & -> & N & P). rewrite (f_line_parsed M (zcfg zf) body (Some (B "ZOn")) d x N P). cbn [zcfg fc_raw run_raw].
  replace (zon_raw act zinit zf (fs_env x) (Some (B "ZOn")) d) with (zon_raw act zinit zf (fs_env x) (Some (B "ZOn")) []) by (destruct (fs_env x) as [[? ?] ?]; reflexivity).
  destruct (zon_raw act zinit zf (fs_env x) (Some (B "ZOn")) []) as [s [| |e]] eqn:E; try reflexivity.
  exfalso. destruct (fs_env x) as [[w L] dec]. unfold zon_raw in E. rewrite bytes_eqb_refl in E. destruct (enable_zlib act zinit zf (lr_rest L)) as [[[u|e|] r]|]; discriminate.
Qed.
Lemma other_says zf l (x : fstate (W * lr) A) : is_line "|"%byte l -> ~ zon_line l -> f_line M (zcfg zf) l x = f_line M (silent_cfg limit) l x.
Proof.
  intros (body & -> & _) NZ. destruct (contains_byte x00 body) eqn:Z0.
  { apply contains_byte_spec in Z0. unfold f_line. rewrite (proj2 (contains_byte_spec x00 (body ++ ["|"%byte]))) by (apply in_app_iff; now left). reflexivity. }
  apply contains_byte_false in Z0. destruct body as [|b body]; [reflexivity|]. destruct (parsed_exists (b :: body)) as (cmd & d & P); [discriminate|].
  change ["|"%byte] with (B "|"). rewrite (f_line_parsed M (zcfg zf) _ cmd d x Z0 P), (f_line_parsed M (silent_cfg limit) _ cmd d x Z0 P). cbn [zcfg silent_cfg fc_raw run_raw].
  replace (zon_raw act zinit zf (fs_env x) cmd d) with (fs_env x, HPass); [reflexivity|].
  destruct (fs_env x) as [[w L] dec]. unfold zon_raw. destruct cmd as [t|]; [|reflexivity]. destruct (bytes_eqb t (B "ZOn")) eqn:ET; [|reflexivity].
  apply bytes_eqb_true in ET. subst t. exfalso. apply NZ. exists (b :: body), d. auto.
Qed.
Lemma silent_line s dec g l v s' dec' g' : line M (silent_cfg limit) s dec g l v s' dec' g' -> s' = s /\ dec' = dec /\ (v = VNext -> g' = g).
Proof.
  intro LI. inversion LI as [| |f s1 e KA|body N|body cmd d s1 H|body cmd d s1 e H|body t d s1 e H|body cmd t d s1 x H|body cmd t d s1 i o put s2 dec1 a r v1 s3 a' H OT SE ST EN]; subst; auto; try discriminate.
  all: destruct H as (N & P & PO); cbn [silent_cfg fc_raw map] in PO; inversion PO; subst; auto.
  inversion ST as [s4 a4 r4 U|? ? ? ? ? ? F|? ? ? ? ? ? ? ? ? ? F|? ? ? ? ? ? ? ? ? F]; subst; try discriminate F.
  match type of U with r_unmarshal M ?oo ?dc _ ?dd = _ => destruct (pure oo dc dd) as (a5 & r5 & Q) end. rewrite Q in U. inversion U; subst.
  inversion EN; subst; try (match goal with F : fc_unmarshal_err _ = Some _ |- _ => discriminate F end); try (match goal with PM : polled _ _ _ _ |- _ => inversion PM; subst end); repeat split; auto; discriminate.
Qed.

Definition zstate (w : W) (dec : codec) (r : reader unit Z) : env (W * lr) := ((w, mkLreader [] r), dec).
Definition reply (y : lstep) (x : fstate (W * lr) A) : fanswer A := FRNew (match y with LReturn None => Ok (f_msg x) | LReturn (Some e) => Err e | _ => Panic end).
Lemma base_line (w : W) dec (r r' : reader unit Z) o f : rd_hooks r = [] -> read_line act f tt r = Some (o, tt, r') ->
  ev (fun g => n_line act zinit g (zstate w dec r) = Some (o, zstate w dec r')).
Proof.
  intros BA E. apply takes_n_line. unfold takes_line, zstate. cbn [fst snd].
  replace (lr_tidy (mkLreader (@nil (env W -> bytes -> hprog (env W))) r)) with (mkLreader (@nil (env W -> bytes -> hprog (env W))) r) by (unfold lr_tidy; cbn; rewrite <- BA; now destruct r).
  destruct o as [l|p e|]; [|eapply SpecReentry.re_none; [exact E|discriminate]..]. eapply SpecReentry.re_pass; [exact E|constructor].
Qed.

Lemma zon_one max t os dec (w : W) : tells act zinit max t os -> forall r, serves act zinit r t -> rd_hooks r = [] -> rd_delim r = "|"%byte -> rd_max r = max ->
  exists y x' os' t' r', tells act zinit max t' os' /\ serves act zinit r' t' /\ rd_hooks r' = [] /\ rd_delim r' = "|"%byte /\ rd_max r' = max /\
    fs_env x' = zstate w dec r' /\ (forall n rs, heard M limit dec n os' rs -> heard M limit dec (S n) os (reply y x' :: rs)) /\
    exists z0, forall zf, z0 <= zf -> exists f0, forall f g, f0 <= f -> f0 <= g -> n_read act zinit M f g (zcfg zf) (mkFs (zstate w dec r) dec FNil []) = Some (y, x').
Proof.
  pose proof (serves_session (W := unit) act zinit) as SS.
  assert (LN : forall (r : reader unit Z) t l u, rd_hooks r = [] -> rd_delim r = "|"%byte -> rd_max r = max -> serves act zinit r t -> contents t = l ++ u -> is_line "|"%byte l -> within max (length l) ->
    exists r', serves act zinit r' (after (length l) t) /\ rd_hooks r' = [] /\ rd_delim r' = "|"%byte /\ rd_max r' = max /\ ev (fun g => n_line act zinit g (zstate w dec r) = Some (LLine l, zstate w dec r'))).
  { intros r t0 l u H0 DE MA SV C L N. rewrite <- DE in L. rewrite <- MA in N. destruct (se_line _ _ _ SS r t0 l u tt tt HPass SV C L N) as (r' & S1 & (K1 & K2 & K3 & K4) & [f E]); [rewrite H0; constructor|].
    exists r'. split; [exact S1|]. split; [congruence|]. split; [congruence|]. split; [congruence|]. exact (base_line w dec r r' _ f H0 (E f (le_n _))). }
  induction 1 as [t ND WI|t l u os C L N NZ TE IH|t l u z x more os C L N ZL AF INF TE IH|t l u x more os C L N ZL AF NE TE IH]; intros r SV BA DE MA.
  - rewrite <- DE in ND. rewrite <- MA in WI. destruct (se_rest _ _ _ SS r t tt SV ND WI) as (r' & S1 & (K1 & K2 & K3 & K4) & [f E]).
    destruct (base_line w dec r r' _ f BA (E f (le_n _))) as [f1 E1].
    exists (LReturn (Some EEOF)), (mkFs (zstate w dec r') dec FNil []), [], (Plain []), r'.
    split; [constructor; [now intros []|]; rewrite MA in WI; unfold within in *; cbn [contents length] in *; lia|]. split; [exact S1|]. split; [congruence|]. split; [congruence|]. split; [congruence|]. split; [reflexivity|].
    split; [intros n rs HE; now constructor|]. exists 0. intros zf _. exists (S f1). intros g h G H1. destruct g as [|g]; [lia|]. cbn [n_read fs_env]. rewrite E1 by lia. reflexivity.
  - destruct (LN r t l u BA DE MA SV C L N) as (r1 & S1 & B1 & D1 & M1 & [f1 E1]).
    destruct (f_line_says M Mlaw (silent_cfg limit) l (mkFs (zstate w dec r1) dec FNil []) (GOne None)) as (y & x2 & v & g2 & P & LI & AG & HO & SH); [split; reflexivity|]. cbn [fs_env fs_dec] in LI.
    destruct (silent_line _ _ _ _ _ _ _ _ LI) as (Q1 & Q2 & Q3). rewrite Q1, Q2 in LI.
    assert (GO : (v = VNext /\ y = LSkip) \/ (v <> VNext /\ y <> LSkip)) by (destruct y as [|[e|]|], v; cbn in AG; try contradiction; [left|right..]; split; congruence).
    destruct GO as [[-> ->]|[NV NY]].
    + specialize (Q3 eq_refl). subst g2. destruct HO as [HO1 HO2]. assert (X2 : x2 = mkFs (zstate w dec r1) dec FNil []) by (destruct x2; cbn in *; subst; reflexivity). subst x2.
      destruct (IH r1 S1 B1 D1 M1) as (y & x' & os' & t' & r' & T' & S' & B' & D' & M' & EN & HE & z0 & RD). exists y, x', os', t', r'. do 6 (split; [assumption|]).
      split; [intros n rs Hn; eapply he_skip; [exact LI|apply HE, Hn]|]. exists z0. intros zf G. destruct (RD zf G) as [f2 E2]. exists (S (f1 + f2)). intros g h G1 G2. destruct g as [|g]; [lia|].
      cbn [n_read fs_env]. rewrite E1 by lia. unfold f_env. cbn [fs_dec fs_slot fs_allowed]. rewrite (other_says zf l _ L NZ), P. apply E2; lia.
    + exists y, x2, os, (after (length l) t), r1. do 5 (split; [assumption|]). split; [exact Q1|]. split.
      * intros n rs Hn. eapply he_line; [exact LI|exact NV| |exact Hn]. destruct g2 as [o|]; [|destruct SH]. destruct HO as [_ HO].
        assert (SM : f_msg x2 = o) by (unfold f_msg; rewrite HO; now destruct o). unfold reply. rewrite SM. constructor.
        destruct y as [|[e|]|], v; cbn in AG; try contradiction; try subst e; constructor.
      * exists 0. intros zf _. exists (S f1). intros g h G1 G2. destruct g as [|g]; [lia|]. cbn [n_read fs_env]. rewrite E1 by lia. unfold f_env. cbn [fs_dec fs_slot fs_allowed]. rewrite (other_says zf l _ L NZ), P. destruct y; [now destruct NY|reflexivity..].
  - destruct (LN r t l u BA DE MA SV C L N) as (r1 & S1 & B1 & D1 & M1 & [f1 E1]). rewrite AF in S1.
    destruct (se_zlib _ _ _ SS r1 z x more S1 INF) as (r2 & S2 & (J1 & J2 & J3 & J4) & [f3 E3]).
    destruct (IH r2 S2) as (y & x' & os' & t' & r' & T' & S' & B' & D' & M' & EN & HE & z0 & RD); [congruence..|]. exists y, x', os', t', r'. do 6 (split; [assumption|]). split; [exact HE|].
    exists (z0 + f3). intros zf G. destruct (RD zf ltac:(lia)) as [f2 E2]. exists (S (f1 + f2)). intros g h G1 G2. destruct g as [|g]; [lia|]. cbn [n_read fs_env]. rewrite E1 by lia. rewrite (zon_says zf l _ ZL). cbn [f_env fs_env zstate].
    unfold zon_raw, zstate. cbn [fs_env f_env lr_rest]. rewrite bytes_eqb_refl. cbn [lr_rest]. rewrite E3 by lia. cbn [lr_hooks]. apply E2; lia.
  - destruct (LN r t l u BA DE MA SV C L N) as (r1 & S1 & B1 & D1 & M1 & [f1 E1]). rewrite AF in S1. pose proof (fun zf => se_zlib_twice _ _ _ SS r1 x more zf S1 NE) as E3.
    exists (LReturn (Some err_zlib_active)), (mkFs (zstate w dec r1) dec FNil []), os, (Zip x more), r1. do 5 (split; [assumption|]). split; [reflexivity|].
    split; [intros n rs Hn; now constructor|]. exists 0. intros zf _. exists (S f1). intros g h G1 G2. destruct g as [|g]; [lia|]. cbn [n_read fs_env]. rewrite E1 by lia. rewrite (zon_says zf l _ ZL). cbn [f_env fs_env zstate].
    unfold zon_raw, zstate. cbn [fs_env f_env lr_rest]. rewrite bytes_eqb_refl. cbn [lr_rest]. rewrite E3. reflexivity.
Qed.
Theorem zon_calls max dec (w : W) : forall n t os r, tells act zinit max t os -> serves act zinit r t -> rd_hooks r = [] -> rd_delim r = "|"%byte -> rd_max r = max ->
  exists rs r', heard M limit dec n os rs /\ exists z0, forall zf, z0 <= zf -> ev (fun f => n_calls act zinit M f (zcfg zf) (repeat FNew n) (zstate w dec r) = Some (rs, zstate w dec r')).
Proof.
  induction n as [|n IH]; intros t os r TE SV BA DE MA.
  - exists [], r. split; [constructor|]. exists 0. intros zf _. now exists 0.
  - destruct (zon_one max t os dec w TE r SV BA DE MA) as (y & x' & os' & t' & r1 & T' & S' & B' & D' & M' & EN & HE & z0 & RD).
    destruct (IH t' os' r1 T' S' B' D' M') as (rs & r' & HR & z1 & RD2). exists (reply y x' :: rs), r'. split; [now apply HE|].
    exists (z0 + z1). intros zf G. destruct (RD zf ltac:(lia)) as [f0 E0]. destruct (RD2 zf ltac:(lia)) as [f1 E1]. exists (f0 + f1). intros f F.
    cbn [repeat n_calls n_call]. change (snd (zstate w dec r)) with dec. rewrite E0 by lia. rewrite EN, E1 by lia. reflexivity.
Qed.
End Reentry.

(** ** Callbacks and messages that do not use the line reader *)
Section Plain.
Context {W A Z : Type} (act : Z -> zaction Z) (zinit : Z) (N : rmethods W A).
Notation lr := (@lreader (env W) Z).
Definition up (L : lr) (x : fstate W A) : fstate (W * lr) A := mkFs (above L (fs_env x)) (fs_dec x) (fs_slot x) (fs_allowed x).
Notation M' := (lift_methods N : rmethods (W * lr) A).

Lemma below_above (L : lr) s : below (above L s) = s.
Proof. now destruct s. Qed.
Lemma up_msg (L : lr) x : f_msg (up L x) = f_msg x.
Proof. reflexivity. Qed.
Lemma up_put (L : lr) a x : f_put a (up L x) = up L (f_put a x).
Proof. destruct x as [s dec [| |] l]; reflexivity. Qed.
Lemma up_env (L : lr) s x : f_env (above L s) (up L x) = up L (f_env s x).
Proof. reflexivity. Qed.
Lemma up_choose (L : lr) cmd d x : f_choose M' cmd d (up L x) = match f_choose N cmd d x with inl e => inl e | inr x' => inr (up L x') end.
Proof.
  unfold f_choose. cbn [up fs_allowed lift_methods r_type r_kind]. unfold f_raw, f_chat. cbn [lift_methods r_kind r_type].
  destruct (fs_allowed x) as [|a0 l] eqn:AL.
  - change (f_msg (up L x)) with (f_msg x). destruct (f_msg x) as [a|], cmd as [t|]; try reflexivity.
    + destruct (match r_kind N a with KChat => true | _ => false end); [reflexivity|]. destruct (bytes_eqb (r_type N a) t); reflexivity.
    + destruct (match r_kind N a with KChat => true | _ => false end); reflexivity.
  - destruct (first_index _ (a0 :: l)) as [i|]; [|reflexivity]. change (f_msg (f_slot (FAllowed i) (up L x))) with (f_msg (f_slot (FAllowed i) x)).
    destruct (f_msg (f_slot (FAllowed i) x)) as [a|], cmd as [t|]; try reflexivity.
    + destruct (match r_kind N a with KChat => true | _ => false end); [reflexivity|]. destruct (bytes_eqb (r_type N a) t); reflexivity.
    + destruct (match r_kind N a with KChat => true | _ => false end); reflexivity.
Qed.
Lemma up_decode (L : lr) c d x : f_decode M' (lift_cfg c) d (up L x) = (up L (fst (f_decode N c d x)), snd (f_decode N c d x)).
Proof.
  unfold f_decode. rewrite up_msg. destruct (f_msg x) as [a|]; [|reflexivity]. cbn [lift_methods r_unmarshal up fs_env fs_dec]. rewrite below_above.
  destruct (r_unmarshal N a (fs_dec x) (fs_env x) d) as [[s1 a1] r1]. cbn [fst snd above]. change (mkFs _ _ (fs_slot x) (fs_allowed x)) with (up L x).
  change ((fst (fs_env x), L, snd (fs_env x))) with (above L (fs_env x)). cbn [lift_cfg fc_unknown]. destruct (fc_unknown c) as [f|]; cbn [option_map].
  - change (fst s1, L, snd s1) with (above L s1). rewrite up_env, up_put. destruct r1 as [u|e|]; [reflexivity| |reflexivity]. destruct e; try reflexivity.
    unfold around. rewrite below_above. destruct (f s1 text) as [[w2 d2] [dec|e]]; cbn [fst snd].
    + destruct dec as [dd|]; cbn [lift_methods r_unmarshal fst snd]; unfold below, above; cbn [fst snd].
      * match goal with |- context [r_unmarshal N ?u ?v ?w ?z] => destruct (r_unmarshal N u v w z) as [[s4 a2] r2] end. cbn [fst snd]. rewrite <- (up_put L a2). reflexivity.
      * match goal with |- context [r_unmarshal N ?u ?v ?w ?z] => destruct (r_unmarshal N u v w z) as [[s4 a2] r2] end. cbn [fst snd]. rewrite <- (up_put L a2). reflexivity.
    + reflexivity.
  - change (fst s1, L, snd s1) with (above L s1). rewrite up_env, up_put. destruct r1; reflexivity.
Qed.
Lemma up_msgs (L : lr) (hs : list (env W * A -> (env W * A) * hook_res)) : forall s a,
  f_msgs (map (fun h p => match h (below (fst p), snd p) with (s1, a, v) => (above (snd (fst (fst p))) s1, a, v) end) hs) (above L s, a) =
  match f_msgs hs (s, a) with (s1, a1, v) => (above L s1, a1, v) end.
Proof.
  induction hs as [|h hs IH]; intros s a; [reflexivity|]. cbn [map f_msgs fst snd]. rewrite below_above. destruct (h (s, a)) as [[s1 a1] [| |e]]; cbn [above fst snd]; [|reflexivity..].
  apply IH.
Qed.
Lemma up_raw (L : lr) (hs : list (env W -> option bytes -> bytes -> env W * hook_res)) cmd d : forall s,
  run_raw (map (fun h s cmd args => around s (h (below s) cmd args)) hs) (above L s) cmd d = (above L (fst (run_raw hs s cmd d)), snd (run_raw hs s cmd d)).
Proof.
  induction hs as [|h hs IH]; intros s; [reflexivity|]. cbn [map run_raw]. unfold around at 1. rewrite below_above. destruct (h s cmd d) as [s1 [| |e]]; cbn [fst snd above]; [|reflexivity..]. apply IH.
Qed.
Lemma up_accept (L : lr) c orig cmd d x : f_accept M' (lift_cfg c) orig cmd d (up L x) = (fst (f_accept N c orig cmd d x), up L (snd (f_accept N c orig cmd d x))).
Proof.
  unfold f_accept. rewrite up_choose. destruct (f_choose N cmd d x) as [e|x1]; [reflexivity|]. rewrite up_decode. destruct (f_decode N c d x1) as [x2 [e|[u|e|]]]; cbn [fst snd]; try reflexivity.
  - rewrite up_msg. destruct (f_msg x2) as [a|]; [|reflexivity]. cbn [lift_cfg fc_msg]. change (fs_env (up L x2)) with (above L (fs_env x2)). rewrite up_msgs.
    destruct (f_msgs (fc_msg c) (fs_env x2, a)) as [[s a'] [| |e]]; cbn [fst snd]; rewrite up_put; reflexivity.
  - cbn [lift_cfg fc_unmarshal_err]. destruct (fc_unmarshal_err c) as [f|]; cbn [option_map]; [|reflexivity]. change (fs_env (up L x2)) with (above L (fs_env x2)). unfold around. rewrite below_above.
    destruct (f (fs_env x2) orig e) as [s [[] r]]; reflexivity.
Qed.
Lemma up_line (L : lr) c l x : f_line M' (lift_cfg c) l (up L x) = (fst (f_line N c l x), up L (snd (f_line N c l x))).
Proof.
  unfold f_line. destruct (negb _); [reflexivity|]. destruct (contains_byte x00 l); [reflexivity|]. destruct (removelast l) as [|b q].
  - cbn [lift_cfg fc_keep_alive]. destruct (fc_keep_alive c) as [f|]; cbn [option_map]; [|reflexivity]. change (fs_env (up L x)) with (above L (fs_env x)). unfold around. rewrite below_above.
    destruct (f (fs_env x)) as [s [e|]]; reflexivity.
  - change (fs_env (up L x)) with (above L (fs_env x)). destruct (beq b "$"%byte).
    + destruct (match cut " "%byte q with Some (a, r) => (a, r) | None => (q, []) end) as [cmd args]. cbn [lift_cfg fc_raw]. rewrite up_raw. destruct (run_raw (fc_raw c) (fs_env x) (Some cmd) args) as [s [| |e]]; cbn [fst snd]; try reflexivity.
      destruct cmd as [|c0 cmd]; [reflexivity|]. cbn [lift_cfg fc_max_cmd]. destruct (_ <? _)%Z; [reflexivity|]. destruct (negb _); [reflexivity|]. rewrite up_env. apply up_accept.
    + cbn [lift_cfg fc_raw]. rewrite up_raw. destruct (run_raw (fc_raw c) (fs_env x) None (b :: q)) as [s [| |e]]; cbn [fst snd]; try reflexivity. rewrite up_env. apply up_accept.
Qed.

Lemma plain_n_line f s (r : reader (env W) Z) : n_line act zinit f (above (of_reader r) s) =
  match read_line act f s r with Some (o, s', r') => Some (o, above (of_reader r') s') | None => None end.
Proof.
  destruct s as [w dec].
  change (n_line act zinit f (above (of_reader r) (w, dec))) with
    (match re_read_line act zinit f (w, dec) (of_reader r) with None => None | Some (o, (w', dec'), L') => Some (o, ((w', L'), dec')) end).
  rewrite (plain_line (W := env W)). unfold env. destruct (read_line act f (w, dec) r) as [[[o [w' dec']] r']|]; reflexivity.
Qed.
Lemma plain_n_read rl c : forall f x (r : reader (env W) Z), n_read act zinit M' f rl (lift_cfg c) (up (of_reader r) x) =
  match f_read N act f rl c x r with Some (y, x', r') => Some (y, up (of_reader r') x') | None => None end.
Proof.
  induction f as [|f IH]; intros x r; [reflexivity|]. cbn [n_read f_read]. change (fs_env (up (of_reader r) x)) with (above (of_reader r) (fs_env x)). rewrite plain_n_line.
  destruct (read_line act rl (fs_env x) r) as [[[[l|o e|] s] r1]|]; try reflexivity. change (f_env (above (of_reader r1) s) (up (of_reader r) x)) with (up (of_reader r1) (f_env s x)).
  rewrite up_line. destruct (f_line N c l (f_env s x)) as [[|e|] x1]; cbn [fst snd]; [apply IH|reflexivity..].
Qed.
Lemma plain_n_calls f c : forall ks s (r : reader (env W) Z), n_calls act zinit M' f (lift_cfg c) ks (above (of_reader r) s) =
  match f_calls N act f c ks s r with Some (os, s', r') => Some (os, above (of_reader r') s') | None => None end.
Proof.
  induction ks as [|k ks IH]; intros s r; [reflexivity|]. cbn [n_calls f_calls].
  assert (ST : n_call act zinit M' f (lift_cfg c) k (above (of_reader r) s) = match f_call N act f c k s r with Some (o, s', r') => Some (o, above (of_reader r') s') | None => None end).
  { assert (RD : forall o l, n_read act zinit M' f f (lift_cfg c) (mkFs (above (of_reader r) s) (snd (above (of_reader r) s)) o l) =
      match f_read N act f f c (mkFs s (snd s) o l) r with Some (y, x', r') => Some (y, up (of_reader r') x') | None => None end).
    { intros o l. change (mkFs (above (of_reader r) s) (snd (above (of_reader r) s)) o l) with (up (of_reader r) (mkFs s (snd s) o l)). apply plain_n_read. }
    destruct k as [|a|[|a l]|dec]; cbn [n_call f_call]; try reflexivity; rewrite RD; destruct (f_read N act f f c _ r) as [[[y x] r1]|]; reflexivity. }
  rewrite ST. destruct (f_call N act f c k s r) as [[[o s1] r1]|]; [|reflexivity]. rewrite IH. destruct (f_calls N act f c ks s1 r1) as [[[os s2] r2]|]; reflexivity.
Qed.
End Plain.
