(** Proofs for properties C137 and C138: the message reader with messages of a program. *)
From Verif Require Import Base BaseFacts Utf8 SpecText NmdcText NmdcChat NmdcMessage LineReader SpecLine LineReaderStream NmdcReader SpecReader NmdcReaderFacts SpecStream NmdcStreamFacts SpecCalls NmdcCallFacts.
From Verif Require Import NmdcProgram NmdcForeign SpecForeign.
From Coq Require Import Lia.

Section Lines.
Context {W A Z : Type} (act : Z -> zaction Z).
Variable M : rmethods W A.
Hypothesis LAW : lawful M.

(** ** Choosing *)
(** The goal as the state of the model. *)
Definition gholds (x : fstate W A) (g : goal A) : Prop :=
  match g with
  | GOne o => fs_allowed x = [] /\ fs_slot x = match o with None => FNil | Some a => FOwn a end
  | GMany l => l <> [] /\ fs_allowed x = l
  end.
Lemma takes_dec limit cmd t a : of_type limit cmd t ->
  (match cmd with None => f_chat M a | Some _ => bytes_eqb (r_type M a) t end = true <-> takes M t a).
Proof.
  destruct cmd as [c|]; cbn.
  - intros [-> (N & _)]. rewrite bytes_eqb_true. destruct t; [contradiction|reflexivity].
  - intros ->. unfold f_chat, takes. destruct (r_kind M a); split; congruence.
Qed.
Lemma f_raw_true a : f_raw M a = true <-> r_kind M a = KRaw.
Proof. unfold f_raw. destruct (r_kind M a); split; congruence. Qed.

Lemma f_choose_says limit cmd t d (x : fstate W A) g : of_type limit cmd t -> gholds x g ->
  (exists u, rejects M t g u /\ f_choose M cmd d x = inl (EUnexpectedCmd u t d)) \/
  (exists i o put sl, selects M t g i o put /\ f_choose M cmd d x = inr (f_slot sl x) /\ f_msg (f_slot sl x) = Some o /\
     (match g with GMany _ => sl = FAllowed i | GOne _ => exists a, sl = FOwn a end) /\
     forall a (s : env W) dec, gholds (f_put a (mkFs s dec sl (fs_allowed x))) (put a)).
Proof.
  intros T H. pose proof (fun a => takes_dec limit cmd t a T) as FD.
  assert (CT : match cmd with Some t => t | None => [] end = t) by (destruct cmd as [c|]; [now destruct T|now symmetry]).
  unfold f_choose. rewrite CT.
  set (acc := fun a : A => match cmd with Some t0 => (f_raw M a || bytes_eqb (r_type M a) t0)%bool | None => (f_raw M a || f_chat M a)%bool end).
  assert (AC : forall a, acc a = (f_raw M a || match cmd with None => f_chat M a | Some _ => bytes_eqb (r_type M a) t end)%bool) by (intros a; unfold acc; destruct cmd as [c|]; [destruct T as [-> _]|]; reflexivity).
  assert (NO : forall a, acc a = false -> passes M t a).
  { intros a E. rewrite AC in E. apply Bool.orb_false_iff in E as [E1 E2]. split.
    - intros F. apply FD in F. congruence.
    - intros K. apply f_raw_true in K. congruence. }
  assert (CHECK : forall (x1 : fstate W A) a, f_msg x1 = Some a ->
    match f_msg x1, cmd with
    | None, Some t0 => inr (f_slot (FOwn (r_new M t0)) x1)
    | None, None => inr (f_slot (FOwn (r_chat M)) x1)
    | Some a, Some t0 => if f_chat M a then inl (EUnexpectedCmd [] t d) else if bytes_eqb (r_type M a) t0 then inr x1 else inl (EUnexpectedCmd (r_type M a) t d)
    | Some a, None => if f_chat M a then inr x1 else inl (EUnexpectedCmd (r_type M a) t d)
    end = (if match cmd with None => f_chat M a | Some _ => bytes_eqb (r_type M a) t end then inr x1 else inl (EUnexpectedCmd (r_type M a) t d)) :> error + fstate W A).
  { intros x1 a ->. destruct cmd as [c|]; [|reflexivity]. destruct T as [-> (N & _)]. destruct (f_chat M a) eqn:C; [|reflexivity].
    assert (K : r_kind M a = KChat) by (unfold f_chat in C; destruct (r_kind M a); congruence). rewrite (LAW a K). now rewrite (proj2 (bytes_eqb_false _ _)) by congruence. }
  destruct g as [o|l]; cbn [gholds] in H.
  - destruct H as [HA HS]. rewrite HA. destruct o as [a|].
    + assert (SM : f_msg x = Some a) by (unfold f_msg; now rewrite HS). rewrite (CHECK x a SM).
      destruct (match cmd with None => f_chat M a | Some _ => bytes_eqb (r_type M a) t end) eqn:E.
      * right. apply FD in E. exists 0, a, (fun a => GOne (Some a)), (FOwn a). split; [now constructor|]. split; [destruct x; cbn in HS |- *; now subst|]. split; [reflexivity|]. split; [eauto|]. intros a' s dec. split; reflexivity.
      * left. exists (r_type M a). split; [|reflexivity]. constructor. intros F. apply FD in F. congruence.
    + assert (SM : f_msg x = None) by (unfold f_msg; now rewrite HS). rewrite SM. right. destruct cmd as [c|].
      * destruct T as [-> (N & _)]. exists 0, (r_new M t), (fun a => GOne (Some a)), (FOwn (r_new M t)). split; [now constructor|]. split; [reflexivity|]. split; [reflexivity|]. split; [eauto|]. intros a' s dec. split; reflexivity.
      * exists 0, (r_chat M), (fun a => GOne (Some a)), (FOwn (r_chat M)). split; [now constructor|]. split; [reflexivity|]. split; [reflexivity|]. split; [eauto|]. intros a' s dec. split; reflexivity.
  - destruct H as [N HA]. rewrite HA. destruct l as [|a0 l]; [contradiction|]. fold acc. destruct (first_index acc (a0 :: l)) as [i|] eqn:F.
    + apply first_index_some in F as (l1 & a & l2 & E & <- & P & Q). rewrite E in *. clear E.
      assert (SM : f_msg (f_slot (FAllowed (length l1)) x) = Some a) by (unfold f_msg, f_slot; cbn; rewrite HA; apply nth_error_at).
      assert (PO : Forall (passes M t) l1) by (eapply Forall_impl; [|exact P]; exact NO).
      rewrite (CHECK _ a SM). destruct (match cmd with None => f_chat M a | Some _ => bytes_eqb (r_type M a) t end) eqn:E.
      * right. apply FD in E. exists (length l1), a, (fun a' => GMany (l1 ++ a' :: l2)), (FAllowed (length l1)). split; [now constructor|]. split; [reflexivity|]. split; [exact SM|]. split; [reflexivity|].
        intros a' s dec. unfold f_put. cbn. split; [destruct l1; discriminate|]. apply set_nth_at.
      * left. rewrite AC, E, Bool.orb_false_r in Q. apply f_raw_true in Q. exists (r_type M a). split; [|reflexivity]. apply rj_raw; [exact PO|exact Q|]. intros K. apply FD in K. congruence.
    + left. exists (r_type M a0). split; [|reflexivity]. apply rj_none. eapply Forall_impl; [|exact (first_index_none _ _ F)]. exact NO.
Qed.

(** ** Decoding *)
Variable c : fcfg W A.
Lemma put_again a a' (x : fstate W A) : f_put a' (f_put a x) = f_put a' x.
Proof. unfold f_put, f_slot. destruct x as [s dec sl al]. cbn. destruct sl as [| |i]; cbn; try reflexivity. now rewrite set_nth_twice. Qed.
Lemma f_decode_says d (x : fstate W A) o : f_msg x = Some o -> exists s dec a r,
  f_decode M c d x = (f_put a (mkFs s dec (fs_slot x) (fs_allowed x)), r) /\ stores M (fc_unknown c) (fs_dec x) o d (fs_env x) s dec a r.
Proof.
  intros SM. unfold f_decode. rewrite SM. destruct (r_unmarshal M o (fs_dec x) (fs_env x) d) as [[s1 a1] r1] eqn:D.
  assert (E1 : f_put a1 (f_env s1 x) = f_put a1 (mkFs s1 (fs_dec x) (fs_slot x) (fs_allowed x))) by reflexivity.
  assert (PLAIN : (forall g0 text, fc_unknown c = Some g0 -> r1 <> Err (EUnknownEnc text)) -> exists s dec a r,
    (f_put a1 (f_env s1 x), inr r1) = (f_put a (mkFs s dec (fs_slot x) (fs_allowed x)), r) /\ stores M (fc_unknown c) (fs_dec x) o d (fs_env x) s dec a r).
  { intros H. exists s1, (fs_dec x), a1, (inr r1). split; [now rewrite E1|]. apply st_once; [exact D|].
    intros F t. destruct (fc_unknown c) as [g|]; [|contradiction]. now apply (H g). }
  destruct (fc_unknown c) as [f|] eqn:U; [|apply PLAIN; discriminate].
  destruct r1 as [u|[ | | | |text| ]|] eqn:R; try (apply PLAIN; discriminate).
  destruct (f s1 text) as [[w2 k2] [[n|]|e]] eqn:F.
  - cbv zeta. cbn [fst]. match goal with |- context [r_unmarshal M a1 ?q ?v ?z] => destruct (r_unmarshal M a1 q v z) as [[s3 a2] r2] eqn:D2 end. exists s3, (Some n), a2, (inr r2). split.
    + f_equal. unfold f_put, f_slot, f_env. destruct x as [s0 dec0 sl al]. cbn. destruct sl as [| |i]; cbn; try reflexivity. now rewrite set_nth_twice.
    + now apply (st_decoder _ _ _ _ _ _ f text s1 a1 w2 k2).
  - cbv zeta. destruct (r_unmarshal M a1 None (w2, k2) (to_valid d)) as [[s3 a2] r2] eqn:D2. exists s3, None, a2, (inr r2). split.
    + f_equal. unfold f_put, f_slot, f_env. destruct x as [s0 dec0 sl al]. cbn. destruct sl as [| |i]; cbn; try reflexivity. now rewrite set_nth_twice.
    + apply (st_repaired _ _ _ _ _ _ f text s1 a1 (w2, k2) (to_valid d)); auto using to_valid_repaired.
  - exists (w2, k2), (fs_dec x), a1, (inl e). split; [|now apply (st_refused _ _ _ _ _ _ f text s1)].
    f_equal. unfold f_put, f_slot, f_env. destruct x as [s0 dec0 sl al]. cbn. now destruct sl.
Qed.

(** ** A line *)
Lemma hooks_polled {X} : forall (hs : list (env W * X -> (env W * X) * hook_res)) p q v, f_msgs hs p = (q, v) -> polled hs p q v.
Proof.
  induction hs as [|h hs IH]; intros p q v E; cbn [f_msgs] in E.
  - injection E as <- <-. constructor.
  - destruct (h p) as [p1 [| |e]] eqn:H.
    + apply (po_next _ _ _ p1); auto.
    + injection E as <- <-. apply po_stop; [exact H|discriminate].
    + injection E as <- <-. apply po_stop; [exact H|discriminate].
Qed.
(** The error for the name of a command. *)
Definition f_name (cmd : option bytes) : option error :=
  match cmd with
  | None => None
  | Some [] => Some err_cmd_empty
  | Some t => if (fc_max_cmd c <? Z.of_nat (length t))%Z then Some err_cmd_long else if negb (is_ascii_name t) then Some err_cmd_ascii else None
  end.
Lemma f_name_none cmd : f_name cmd = None -> exists t, of_type (fc_max_cmd c) cmd t.
Proof.
  destruct cmd as [t|]; [|exists []; reflexivity]. cbn. destruct t as [|b t]; [discriminate|]. destruct (Z.ltb_spec (fc_max_cmd c) (Z.of_nat (length (b :: t)))); [discriminate|].
  destruct (is_ascii_name (b :: t)) eqn:E; [|discriminate]. intros _. exists (b :: t). split; [reflexivity|]. split; [discriminate|]. split; [assumption|]. now apply ascii_name_spec.
Qed.
Lemma f_name_some cmd e : f_name cmd = Some e -> exists t, cmd = Some t /\ bad_name (fc_max_cmd c) t e.
Proof.
  destruct cmd as [t|]; [|discriminate]. cbn. intros H. exists t. split; [reflexivity|]. destruct t as [|b t]; [injection H as <-; constructor|].
  destruct (Z.ltb_spec (fc_max_cmd c) (Z.of_nat (length (b :: t)))); [injection H as <-; constructor; [discriminate|assumption]|].
  destruct (is_ascii_name (b :: t)) eqn:E; [discriminate|]. injection H as <-. constructor; [discriminate|assumption|]. rewrite <- ascii_name_spec. congruence.
Qed.
Lemma f_line_parsed body cmd d (x : fstate W A) : ~ In x00 body -> parsed body cmd d ->
  f_line M c (body ++ B "|") x =
  match run_raw (fc_raw c) (fs_env x) cmd d with
  | (s, HErr e) => (LReturn (Some e), f_env s x)
  | (s, HDrop) => (LSkip, f_env s x)
  | (s, HPass) => match f_name cmd with Some e => (LReturn (Some e), f_env s x) | None => f_accept M c body cmd d (f_env s x) end
  end.
Proof.
  intros H P. unfold f_line. change (B "|") with [delimiter]. rewrite last_app, removelast_last.
  destruct (body ++ [delimiter]) as [|e0 el] eqn:E; [destruct body; discriminate|]. rewrite <- E. rewrite beq_refl. cbn [negb].
  assert (K : contains_byte x00 (body ++ [delimiter]) = false).
  { apply contains_byte_false. rewrite in_app_iff. intros [K|[K|[]]]; [contradiction|discriminate]. }
  rewrite K. destruct P as [b0 Hb Hd|t Ht|t a Ht].
  - destruct b0 as [|y b]; [contradiction|]. destruct (beq y "$"%byte) eqn:E2; [apply beq_true in E2; subst y; exfalso; exact (Hd b eq_refl)|].
    destruct (run_raw _ _ _ _) as [s [| |e]]; reflexivity.
  - rewrite beq_refl, (proj2 (cut_none _ _) Ht). destruct (run_raw _ _ _ _) as [s [| |e]]; try reflexivity. cbn [f_name]. destruct t; [reflexivity|]. destruct (_ <? _)%Z; [reflexivity|]. destruct (is_ascii_name _); reflexivity.
  - rewrite beq_refl, cut_app by exact Ht. destruct (run_raw _ _ _ _) as [s [| |e]]; try reflexivity. cbn [f_name]. destruct t; [reflexivity|]. destruct (_ <? _)%Z; [reflexivity|]. destruct (is_ascii_name _); reflexivity.
Qed.

(** The end of a line in the model and in the specification. *)
Definition fagrees (y : lstep) (v : verdict) (x : fstate W A) (g : goal A) : Prop :=
  match y, v with
  | LSkip, VNext => True
  | LReturn (Some e), VErr e' => e = e'
  | LReturn None, VDone i => match g with GOne o => o <> None | GMany _ => fs_slot x = FAllowed i end
  | LCrash, VCrash => True
  | _, _ => False
  end.
(** The shape of the goal is that of the call. *)
Definition gshape (g g' : goal A) : Prop :=
  match g, g' with GOne None, GOne _ | GOne (Some _), GOne (Some _) | GMany _, GMany _ => True | _, _ => False end.
Lemma gshape_refl g : gshape g g. Proof. destruct g as [[|]|]; exact I. Qed.
Lemma gshape_trans a b e : gshape a b -> gshape b e -> gshape a e.
Proof. destruct a as [[|]|], b as [[|]|], e as [[|]|]; cbn; auto. Qed.
Lemma selects_shape t g i o put a : selects M t g i o put -> gshape g (put a).
Proof. destruct 1; exact I. Qed.
Lemma f_env_same (x : fstate W A) : f_env (fs_env x) x = x. Proof. now destruct x. Qed.

(** What is shown of a line. *)
Definition line_ok (l : bytes) (x : fstate W A) (g : goal A) : Prop :=
  exists y x' v g', f_line M c l x = (y, x') /\ line M c (fs_env x) (fs_dec x) g l v (fs_env x') (fs_dec x') g' /\ fagrees y v x' g' /\ gholds x' g' /\ gshape g g'.

Lemma f_line_says l x g : gholds x g -> line_ok l x g.
Proof.
  intros H.
  assert (SAME : forall y v s, f_line M c l x = (y, f_env s x) -> line M c (fs_env x) (fs_dec x) g l v s (fs_dec x) g -> fagrees y v (f_env s x) g -> line_ok l x g).
  { intros y v s P K AG. exists y, (f_env s x), v, g. split; [exact P|]. split; [exact K|]. split; [exact AG|]. split; [destruct g; exact H|apply gshape_refl]. }
  assert (D : (forall body, l <> body ++ B "|") \/ exists body, l = body ++ B "|").
  { destruct l as [|b0 l0] using rev_ind; [left; intros [|] K; discriminate|]. destruct (beq b0 "|") eqn:E.
    - apply beq_true in E. subst b0. right. now exists l0.
    - left. intros body K. apply app_inj_tail in K as [_ ->]. now rewrite beq_refl in E. }
  destruct D as [D|[body ->]].
  { assert (Q : f_line M c l x = (LReturn (Some err_no_delim), x)).
    { unfold f_line. destruct l as [|b0 l0] using rev_ind; [reflexivity|]. rewrite last_app. destruct (beq b0 delimiter) eqn:E.
      - apply beq_true in E. subst b0. exfalso. exact (D l0 eq_refl).
      - destruct (l0 ++ [b0]); reflexivity. }
    apply (SAME (LReturn (Some err_no_delim)) (VErr err_no_delim) (fs_env x)); [now rewrite f_env_same|now apply li_open|reflexivity]. }
  destruct body as [|b body'].
  { pose proof (eq_refl (f_line M c (B "|") x)) as P. unfold f_line in P at 2. cbn [last removelast] in P. change (beq "|"%byte delimiter) with true in P. cbn [negb] in P. change (contains_byte x00 (B "|")) with false in P.
    cbn [app] in *. change (removelast (B "|")) with (@nil byte) in P. cbv iota in P. destruct (fc_keep_alive c) as [f|] eqn:KA.
    - destruct (f (fs_env x)) as [s [e|]] eqn:F.
      + apply (SAME (LReturn (Some e)) (VErr e) s); [exact P| |reflexivity]. exact (li_alive _ _ _ _ _ f s (Some e) KA F).
      + apply (SAME LSkip VNext s); [exact P| |exact I]. exact (li_alive _ _ _ _ _ f s None KA F).
    - apply (SAME LSkip VNext (fs_env x)); [now rewrite f_env_same|now apply li_silent|exact I]. }
  set (body := b :: body') in *. assert (NE : body <> []) by discriminate. clearbody body. clear b body'.
  destruct (in_dec (fun x y => match beq_spec x y with ReflectT _ p => left p | ReflectF _ p => right p end) x00 body) as [ZZ|ZZ].
  { apply (SAME (LReturn (Some err_null)) (VErr err_null) (fs_env x)); [|now apply li_nul|reflexivity].
    rewrite f_env_same. unfold f_line. change (B "|") with [delimiter]. rewrite last_app.
    destruct (body ++ [delimiter]) as [|e0 el] eqn:E; [destruct body; discriminate|]. rewrite <- E. rewrite beq_refl. cbn [negb].
    assert (K : contains_byte x00 (body ++ [delimiter]) = true) by (apply contains_byte_spec; apply in_app_iff; now left). now rewrite K. }
  destruct (parsed_exists body NE) as (cmd & d & P). pose proof (f_line_parsed body cmd d x ZZ P) as PP.
  destruct (run_raw (fc_raw c) (fs_env x) cmd d) as [s1 h] eqn:RR. assert (HH : hears c (fs_env x) body cmd d s1 h) by (split; [exact ZZ|split; [exact P|now apply raw_polled]]).
  destruct h as [| |e].
  2: { apply (SAME LSkip VNext s1); [exact PP|now apply (li_dropped _ _ _ _ _ _ cmd d)|exact I]. }
  2: { apply (SAME (LReturn (Some e)) (VErr e) s1); [exact PP|now apply (li_stopped _ _ _ _ _ _ cmd d)|reflexivity]. }
  destruct (f_name cmd) as [e|] eqn:NM.
  { apply f_name_some in NM as (t & -> & BN). apply (SAME (LReturn (Some e)) (VErr e) s1); [exact PP|now apply (li_name _ _ _ _ _ _ t d)|reflexivity]. }
  apply f_name_none in NM as (t & OT). set (x1 := f_env s1 x) in *. assert (H1 : gholds x1 g) by (destruct g; exact H).
  unfold f_accept in PP. destruct (f_choose_says (fc_max_cmd c) cmd t d x1 g OT H1) as [(u & RF & CH)|(i & o & put & sl & PK & CH & SM & SL & HO)]; rewrite CH in PP.
  { apply (SAME (LReturn (Some (EUnexpectedCmd u t d))) (VErr (EUnexpectedCmd u t d)) s1); [exact PP|now apply (li_type _ _ _ _ _ _ cmd)|reflexivity]. }
  destruct (f_decode_says d (f_slot sl x1) o SM) as (s2 & dec2 & a & r & DE & ST). rewrite DE in PP. cbn [fs_slot f_slot fs_allowed] in PP, DE. cbn [f_slot fs_dec fs_env x1 f_env] in ST.
  set (x0 := mkFs s2 dec2 sl (fs_allowed x1)) in *.
  assert (F2 : forall a', fs_env (f_put a' x0) = s2 /\ fs_dec (f_put a' x0) = dec2 /\ f_msg (f_put a' x0) = Some a' /\ match g with GMany _ => fs_slot (f_put a' x0) = FAllowed i | GOne _ => True end).
  { intros a'. unfold x0, f_put, f_slot. destruct g as [o'|l'].
    - destruct SL as [m' ->]. cbn. auto.
    - subst sl. cbn. repeat split; auto. unfold f_msg. cbn. unfold f_msg in SM. cbn in SM. now apply (nth_set_nth a' _ _ o). }
  assert (END : forall y v s3 a', f_line M c (body ++ B "|") x = (y, f_env s3 (f_put a' x0)) -> ends c body i s2 a r v s3 a' ->
    match y, v with LSkip, VNext | LCrash, VCrash => True | LReturn (Some e), VErr e' => e = e' | LReturn None, VDone j => j = i | _, _ => False end -> line_ok (body ++ B "|") x g).
  { intros y v s3 a' Q EE AG. destruct (F2 a') as (_ & G2 & _ & G4). exists y, (f_env s3 (f_put a' x0)), v, (put a'). split; [exact Q|]. split; [|split; [|split; [|exact (selects_shape _ _ _ _ _ a' PK)]]].
    - cbn [f_env fs_env fs_dec]. rewrite G2. exact (li_stored M c (fs_env x) (fs_dec x) g body cmd t d s1 i o put s2 dec2 a r v s3 a' HH OT PK ST EE).
    - unfold fagrees. destruct y as [|[e|]|], v; auto. subst i0. cbn [f_env fs_slot]. clear - PK G4. destruct PK; [discriminate..|exact G4].
    - pose proof (HO a' s2 dec2) as H3. fold x0 in H3. revert H3. unfold gholds. destruct (put a'); auto. }
  destruct (F2 a) as (E1 & _ & E3 & _).
  destruct r as [e|[[]|e|]].
  - apply (END (LReturn (Some e)) (VErr e) s2 a); [|constructor|reflexivity]. rewrite <- E1 at 1. rewrite f_env_same. exact PP.
  - rewrite E3, E1 in PP. destruct (f_msgs (fc_msg c) (s2, a)) as [[s3 a'] h] eqn:RM. apply hooks_polled in RM. rewrite !put_again in PP.
    destruct h as [| |e]; [apply (END (LReturn None) (VDone i) s3 a')|apply (END LSkip VNext s3 a')|apply (END (LReturn (Some e)) (VErr e) s3 a')]; auto; exact (ed_message c body i s2 a s3 a' _ RM).
  - destruct (fc_unmarshal_err c) as [f|] eqn:UE.
    + rewrite E1 in PP. destruct (f s2 body e) as [s3 [[] [e'|]]] eqn:F.
      * apply (END (LReturn (Some e')) (VErr e') s3 a); [exact PP|now apply (ed_replaced _ _ _ _ _ f)|reflexivity].
      * apply (END (LReturn None) (VDone i) s3 a); [exact PP|now apply (ed_tolerated _ _ _ _ _ f)|reflexivity].
      * apply (END LSkip VNext s3 a); [exact PP|now apply (ed_ignored _ _ _ _ _ f e s3 (Some e'))|exact I].
      * apply (END LSkip VNext s3 a); [exact PP|now apply (ed_ignored _ _ _ _ _ f e s3 None)|exact I].
    + apply (END (LReturn (Some e)) (VErr e) s2 a); [|now constructor|reflexivity]. rewrite <- E1 at 1. rewrite f_env_same. exact PP.
  - apply (END LCrash VCrash s2 a); [|constructor|exact I]. rewrite <- E1 at 1. rewrite f_env_same. exact PP.
Qed.

(** ** Calls *)
Lemma f_read_says rl : forall f (x : fstate W A) r g y x' r', gholds x g -> f_read M act f rl c x r = Some (y, x', r') ->
  exists ls v g', lines act M c (fs_env x) (fs_dec x) g r ls v (fs_env x') g' r' /\ fagrees y v x' g' /\ v <> VNext /\ gholds x' g' /\ gshape g g'.
Proof.
  induction f as [|f IH]; intros x r g y x' r' H E; [discriminate|]. cbn [f_read] in E.
  destruct (read_line act rl (fs_env x) r) as [[[[l|o e|] s1] r1]|] eqn:RL; [| | |discriminate].
  - assert (LR : line_read act (fs_env x) r (LLine l) s1 r1) by (now exists rl).
    assert (H1 : gholds (f_env s1 x) g) by (destruct g; exact H). destruct (f_line_says l (f_env s1 x) g H1) as (y1 & x2 & v & g2 & P & LI & AG & HO & SH). rewrite P in E. cbn [f_env fs_env fs_dec] in LI.
    destruct y1 as [|e1|].
    + destruct v; try contradiction. destruct (IH x2 r1 g2 y x' r' HO E) as (ls & v & g' & L2 & AG2 & NV & HO2 & SH2).
      exists (l :: ls), v, g'. split; [now apply (ls_next _ _ _ _ _ _ _ _ s1 r1 (fs_env x2) (fs_dec x2) g2)|]. repeat (split; auto). now apply (gshape_trans _ g2).
    + injection E as <- <- <-. assert (NV : v <> VNext) by (intros ->; destruct e1; contradiction). exists [l], v, g2. split; [now apply (ls_last _ _ _ _ _ _ _ _ s1 r1 v (fs_env x2) (fs_dec x2))|]. auto.
    + injection E as <- <- <-. assert (NV : v <> VNext) by (intros ->; contradiction). exists [l], v, g2. split; [now apply (ls_last _ _ _ _ _ _ _ _ s1 r1 v (fs_env x2) (fs_dec x2))|]. auto.
  - injection E as <- <- <-. exists [], (VErr e), g. split; [apply (ls_error _ _ _ _ _ _ _ o); now exists rl|]. split; [reflexivity|]. split; [discriminate|]. split; [destruct g; exact H|apply gshape_refl].
  - injection E as <- <- <-. exists [], VCrash, g. split; [apply ls_panic; now exists rl|]. split; [exact I|]. split; [discriminate|]. split; [destruct g; exact H|apply gshape_refl].
Qed.

Lemma f_call_says f k s r o s1 r1 : k <> FAny [] -> (forall d, k <> FSetDec d) -> f_call M act f c k s r = Some (o, s1, r1) ->
  exists ls v g, lines act M c s (snd s) (call_goal k) r ls v s1 g r1 /\ replies k v g o.
Proof.
  intros NE NS E. destruct k as [|a|l|d]; [| | |now contradiction (NS d)]; cbn [f_call call_goal] in E |- *.
  - destruct (f_read M act f f c _ r) as [[[y x] r']|] eqn:R; [|discriminate]. injection E as <- <- <-. apply (f_read_says f f _ _ (GOne None)) in R as (ls & v & g' & L & AG & NV & HO & SH); [|split; reflexivity].
    exists ls, v, g'. split; [exact L|]. destruct g' as [o|]; [|contradiction]. destruct HO as [_ HO]. assert (SM : f_msg x = o) by (unfold f_msg; rewrite HO; now destruct o). rewrite SM.
    constructor. destruct y as [|[e|]|], v; cbn in AG; try contradiction; try subst e; constructor.
  - destruct (f_read M act f f c _ r) as [[[y x] r']|] eqn:R; [|discriminate]. injection E as <- <- <-. apply (f_read_says f f _ _ (GOne (Some a))) in R as (ls & v & g' & L & AG & NV & HO & SH); [|split; reflexivity].
    exists ls, v, g'. split; [exact L|]. destruct g' as [[a'|]|]; try contradiction. destruct HO as [_ HO]. assert (SM : f_msg x = Some a') by (unfold f_msg; now rewrite HO). rewrite SM.
    constructor. destruct y as [|[e|]|], v; cbn in AG; try contradiction; try subst e; constructor.
  - destruct l as [|a0 l]; [contradiction|]. destruct (f_read M act f f c _ r) as [[[y x] r']|] eqn:R; [|discriminate]. injection E as <- <- <-.
    apply (f_read_says f f _ _ (GMany (a0 :: l))) in R as (ls & v & g' & L & AG & NV & HO & SH); [|split; [discriminate|reflexivity]].
    exists ls, v, g'. split; [exact L|]. destruct g' as [|l']; try contradiction. destruct HO as [_ HO]. rewrite HO.
    constructor. destruct y as [|[e|]|], v; cbn in AG; try contradiction; try subst e; try rewrite AG; constructor.
Qed.

Theorem f_calls_say f : forall ks s r os s' r', f_calls M act f c ks s r = Some (os, s', r') ->
  exists h, reading act M c s r h s' r' /\ map (fun x => fst (fst x)) h = ks /\ map snd h = os.
Proof.
  induction ks as [|k ks IH]; intros s r os s' r' E.
  - injection E as <- <- <-. exists []. split; [constructor|]. split; reflexivity.
  - cbn [f_calls] in E. destruct (f_call M act f c k s r) as [[[o s1] r1]|] eqn:K; [|discriminate]. destruct (f_calls M act f c ks s1 r1) as [[[os2 s2] r2]|] eqn:KS; [|discriminate]. injection E as <- <- <-.
    destruct (IH s1 r1 _ _ _ KS) as (h & RG & E1 & E2).
    assert (D : k = FAny [] \/ (exists d, k = FSetDec d) \/ (k <> FAny [] /\ forall d, k <> FSetDec d)).
    { destruct k as [| |[|]|d]; eauto; right; right; split; try discriminate; intros; discriminate. }
    destruct D as [->|[[d ->]|[N1 N2]]].
    + cbn [f_call] in K. injection K as <- <- <-. exists ((FAny [], [], FRAny Panic []) :: h). split; [now constructor|]. cbn. rewrite E1, E2. split; reflexivity.
    + cbn [f_call] in K. injection K as <- <- <-. destruct s as [w dec]. exists ((FSetDec d, [], FRSet) :: h). split; [now constructor|]. cbn. rewrite E1, E2. split; reflexivity.
    + destruct (f_call_says f k s r o s1 r1 N1 N2 K) as (ls & v & g & L & RP). destruct s as [w dec]. exists ((k, ls, o) :: h). split; [now apply (rg_call _ _ _ _ _ _ _ _ v s1 g r1)|]. cbn. rewrite E1, E2. split; reflexivity.
Qed.

(** ** Streams *)
Lemma f_read_ends : forall ls (x : fstate W A) (r : reader (env W) Z), supplies act r ls -> exists y x' r' ls' f0, supplies act r' ls' /\ forall f g, f0 <= f -> f0 <= g -> f_read M act f g c x r = Some (y, x', r').
Proof.
  induction ls as [|l ls IH]; intros x r H.
  - destruct (supplies_end act r H) as (rest & r' & K1 & K2). destruct (K1 (fs_env x)) as [f0 Hf]. exists (LReturn (Some EEOF)), x, r', [], (S f0). split; [exact K2|].
    intros f g L1 L2. destruct f as [|f]; [lia|]. cbn [f_read]. rewrite Hf by lia. now rewrite f_env_same.
  - inversion H as [| |? ? r1 ? K1 K2]; subst. destruct (K1 (fs_env x)) as [f0 Hf]. destruct (f_line M c l x) as [y x'] eqn:E.
    destruct y as [|e|].
    + destruct (IH x' r1 K2) as (y & x2 & r' & ls' & f1 & L1 & L2). exists y, x2, r', ls', (S (Nat.max f0 f1)). split; [exact L1|].
      intros f g M1 M2. destruct f as [|f]; [lia|]. cbn [f_read]. rewrite Hf by lia. rewrite f_env_same, E. apply L2; lia.
    + exists (LReturn e), x', r1, ls, (S f0). split; [exact K2|]. intros f g M1 M2. destruct f as [|f]; [lia|]. cbn [f_read]. rewrite Hf by lia. now rewrite f_env_same, E.
    + exists LCrash, x', r1, ls, (S f0). split; [exact K2|]. intros f g M1 M2. destruct f as [|f]; [lia|]. cbn [f_read]. rewrite Hf by lia. now rewrite f_env_same, E.
Qed.
Lemma f_call_ends ls k s (r : reader (env W) Z) : supplies act r ls -> exists o s' r' ls', supplies act r' ls' /\ eventually (fun f => f_call M act f c k s r = Some (o, s', r')).
Proof.
  intros H. destruct k as [|a|[|a l]|d]; cbn [f_call].
  - destruct (f_read_ends ls (mkFs s (snd s) FNil []) r H) as (y & x & r' & ls' & f0 & K1 & K2). eexists _, _, r', ls'. split; [exact K1|]. exists f0. intros f L. rewrite K2 by lia. reflexivity.
  - destruct (f_read_ends ls (mkFs s (snd s) (FOwn a) []) r H) as (y & x & r' & ls' & f0 & K1 & K2). eexists _, _, r', ls'. split; [exact K1|]. exists f0. intros f L. rewrite K2 by lia. reflexivity.
  - exists (FRAny Panic []), s, r, ls. split; [exact H|]. exists 0. reflexivity.
  - destruct (f_read_ends ls (mkFs s (snd s) FNil (a :: l)) r H) as (y & x & r' & ls' & f0 & K1 & K2). eexists _, _, r', ls'. split; [exact K1|]. exists f0. intros f L. rewrite K2 by lia. reflexivity.
  - eexists _, _, r, ls. split; [exact H|]. exists 0. reflexivity.
Qed.
Theorem f_calls_end : forall ks ls s (r : reader (env W) Z), supplies act r ls -> exists os s' r', eventually (fun f => f_calls M act f c ks s r = Some (os, s', r')).
Proof.
  induction ks as [|k ks IH]; intros ls s r H.
  - exists [], s, r. exists 0. reflexivity.
  - destruct (f_call_ends ls k s r H) as (o & s1 & r1 & ls1 & H1 & E1). destruct (IH ls1 s1 r1 H1) as (os & s2 & r2 & E2). exists (o :: os), s2, r2.
    eapply eventually_mono; [|exact (eventually_and _ _ E1 E2)]. intros f [K1 K2]. cbn [f_calls]. now rewrite K1, K2.
Qed.
End Lines.

(** ** Messages no line is for *)
Section Untouched.
Context {W A Z : Type} (act : Z -> zaction Z).
Variables (M : rmethods W A) (c : fcfg W A).

(** The i-th of the messages is [a]. *)
Definition has (i : nat) (a : A) (g : goal A) : Prop := match g with GMany l => nth_error l i = Some a | GOne o => o = Some a /\ i = 0 end.
Lemma nth_other (a a' o : A) : forall l i r, nth_error (l ++ o :: r) i = Some a -> i <> length l -> nth_error (l ++ a' :: r) i = Some a.
Proof. induction l as [|y l IH]; intros i r E N; destruct i as [|i]; cbn in *; try congruence. apply IH; congruence. Qed.
Lemma selects_other t g i o put a j a' : selects M t g i o put -> ~ takes M t a -> has j a g -> has j a (put a').
Proof.
  destruct 1 as [N|E|o T|l o r P T]; intros NT H; cbn in *.
  - destruct H as [H _]. discriminate.
  - destruct H as [H _]. discriminate.
  - destruct H as [[= ->] _]. contradiction.
  - apply (nth_other a a' o l j r H). intros ->. assert (E : nth_error (l ++ o :: r) (length l) = Some o) by (clear; induction l as [|y l IH]; [reflexivity|exact IH]). rewrite E in H. injection H as ->. contradiction.
Qed.
Lemma line_other s dec g l v s' dec' g' i a : line M c s dec g l v s' dec' g' -> ~ line_for M (fc_max_cmd c) a l -> has i a g -> has i a g'.
Proof.
  destruct 1 as [| | | | | | | |body cmd t d s1 j o put s2 dec' a1 r v s3 a' (NZ & P & _) OT SE ST EN]; intros N Hi; auto.
  apply (selects_other t g j o put); [assumption| |assumption]. intros T. apply N. exists body, cmd, t, d. auto.
Qed.
Lemma lines_other s dec g r ls v s' g' r' i a : lines act M c s dec g r ls v s' g' r' -> Forall (fun l => ~ line_for M (fc_max_cmd c) a l) ls -> has i a g -> has i a g'.
Proof.
  induction 1 as [| |s dec g r l s1 r1 s2 dec2 g2 ls v s3 g3 r3 LR LI _ IH|s dec g r l s1 r1 v s2 dec2 g2 LR LI NV]; intros F Hi; auto.
  - inversion F as [|? ? F1 F2]; subst. apply IH; [assumption|]. exact (line_other _ _ _ _ _ _ _ _ _ _ LI F1 Hi).
  - inversion F as [|? ? F1 F2]; subst. exact (line_other _ _ _ _ _ _ _ _ _ _ LI F1 Hi).
Qed.
End Untouched.

(** ** The messages of the package *)
Section Package.
Context {W Z : Type} (act : Z -> zaction Z).
Variable c : ncfg W.
(** A state of NmdcReader.v. *)
Definition as_slot (o : slot) : fslot msg := match o with SNil => FNil | SOwn m => FOwn m | SAllowed i => FAllowed i end.
(** A state of NmdcReader.v. *)
Definition as_state (s : rstate W) : fstate W msg := mkFs (rs_w s, rs_set s) (rs_dec s) (as_slot (rs_slot s)) (rs_allowed s).
Let P : rmethods W msg := package_rmethods.

Lemma package_msg s : f_msg (as_state s) = slot_msg s.
Proof. unfold f_msg, slot_msg. cbn. now destruct (rs_slot s). Qed.
Lemma package_put m s : f_put m (as_state s) = as_state (put_msg m s).
Proof. unfold f_put, put_msg. cbn. now destruct (rs_slot s). Qed.
Lemma package_raw m : f_raw P m = is_raw m. Proof. now destruct m. Qed.
Lemma package_chat m : f_chat P m = is_chat m. Proof. now destruct m. Qed.
Lemma first_index_ext {A} (p q : A -> bool) : (forall x, p x = q x) -> forall l, first_index p l = first_index q l.
Proof. intros H. induction l as [|x l IH]; [reflexivity|]. cbn. now rewrite H, IH. Qed.
Lemma package_choose cmd d s : f_choose P cmd d (as_state s) = match choose cmd d s with inl e => inl e | inr s' => inr (as_state s') end.
Proof.
  unfold f_choose, choose. cbn [as_state fs_allowed]. set (typ := match cmd with Some t => t | None => [] end).
  rewrite (first_index_ext _ (fun m => match cmd with Some t => (is_raw m || bytes_eqb (msg_type m) t)%bool | None => (is_raw m || is_chat m)%bool end)) by (intros m; now rewrite package_raw, package_chat).
  assert (K : forall s1 : rstate W,
    match f_msg (as_state s1), cmd with
    | None, Some t => inr (f_slot (FOwn (r_new P t)) (as_state s1))
    | None, None => inr (f_slot (FOwn (r_chat P)) (as_state s1))
    | Some a, Some t => if f_chat P a then inl (EUnexpectedCmd [] typ d) else if bytes_eqb (r_type P a) t then inr (as_state s1) else inl (EUnexpectedCmd (r_type P a) typ d)
    | Some a, None => if f_chat P a then inr (as_state s1) else inl (EUnexpectedCmd (r_type P a) typ d)
    end = match match slot_msg s1, cmd with
      | None, Some t => inr (with_slot (SOwn (new_message t)) s1)
      | None, None => inr (with_slot (SOwn (MChat chat0)) s1)
      | Some m, Some t => if is_chat m then inl (EUnexpectedCmd [] typ d) else if bytes_eqb (msg_type m) t then inr s1 else inl (EUnexpectedCmd (msg_type m) typ d)
      | Some m, None => if is_chat m then inr s1 else inl (EUnexpectedCmd (msg_type m) typ d)
      end with inl e => inl e | inr s' => inr (as_state s') end :> error + fstate W msg).
  { intros s1. rewrite package_msg. destruct (slot_msg s1) as [m|], cmd as [t|]; try reflexivity; rewrite package_chat; change (r_type P m) with (msg_type m); destruct (is_chat m); try reflexivity. now destruct (bytes_eqb (msg_type m) t). }
  destruct (rs_allowed s) as [|m0 ms]; [exact (K s)|]. destruct (first_index _ (m0 :: ms)) as [i|]; [|reflexivity]. exact (K (with_slot (SAllowed i) s)).
Qed.
Lemma package_decode d s : f_decode P (foreign_cfg c) d (as_state s) = (as_state (fst (decode_into c d s)), snd (decode_into c d s)).
Proof.
  unfold f_decode, decode_into. rewrite package_msg. destruct (slot_msg s) as [m|]; [|reflexivity]. cbn [P package_rmethods r_unmarshal as_state fs_dec fs_env].
  destruct (msg_unmarshal (rs_dec s) m d) as [m1 r1]. cbn [fst snd]. change (f_env (rs_w s, rs_set s) (as_state s)) with (as_state s). rewrite package_put. cbn [foreign_cfg fc_unknown].
  destruct (nc_unknown c) as [f|]; [|reflexivity]. destruct r1 as [u|[ | | | |text| ]|]; try reflexivity. cbv zeta. unfold unaware. cbn [fst snd].
  replace (rs_w (put_msg m1 s)) with (rs_w s) by (unfold put_msg, with_slot; now destruct (rs_slot s)).
  destruct (f (rs_w s) text) as [w [[n|]|e]].
  - cbn [fst]. destruct (msg_unmarshal (Some n) m1 d) as [m2 r2]. cbn [fst snd]. f_equal. rewrite <- (package_put m2). reflexivity.
  - destruct (msg_unmarshal None m1 (to_valid d)) as [m2 r2]. cbn [fst snd]. f_equal. rewrite <- (package_put m2). f_equal. unfold as_state. cbn. f_equal. f_equal. unfold put_msg, with_slot. now destruct (rs_slot s).
  - cbn [fst snd]. f_equal. unfold as_state, f_env, put_msg, with_slot. destruct s as [w0 d0 st0 sl0 al0]. cbn. now destruct sl0.
Qed.
Lemma package_raws cmd d : forall hs w dec, run_raw (map (fun (h : W -> option bytes -> bytes -> W * hook_res) s cmd args => unaware (fun w => h w cmd) s args) hs) (w, dec) cmd d =
  let (w', v) := run_raw hs w cmd d in ((w', dec), v).
Proof. induction hs as [|h hs IH]; intros w dec; [reflexivity|]. cbn [map run_raw]. unfold unaware at 1. cbn [fst snd]. destruct (h w cmd d) as [w1 [| |e]]; [apply IH|reflexivity..]. Qed.
Lemma package_msgs : forall hs w dec m, f_msgs (map (fun (h : W * msg -> (W * msg) * hook_res) (p : env W * msg) => let '((w, m), v) := h (fst (fst p), snd p) in (((w, snd (fst p)), m), v)) hs) ((w, dec), m) =
  let '((w', m'), v) := run_msgs hs (w, m) in (((w', dec), m'), v).
Proof. induction hs as [|h hs IH]; intros w dec m; [reflexivity|]. cbn [map run_msgs f_msgs fst snd]. destruct (h (w, m)) as [[w1 m1] [| |e]]; [apply IH|reflexivity..]. Qed.
Lemma package_env w s : f_env (w, rs_set s) (as_state s) = as_state (with_w w s). Proof. reflexivity. Qed.
Lemma package_accept o cmd d s : f_accept P (foreign_cfg c) o cmd d (as_state s) = (fst (accept_line c o cmd d s), as_state (snd (accept_line c o cmd d s))).
Proof.
  unfold f_accept, accept_line. rewrite package_choose. destruct (choose cmd d s) as [e|s1]; [reflexivity|]. rewrite package_decode. destruct (decode_into c d s1) as [s2 [e|[[]|e|]]]; cbn [fst snd]; try reflexivity.
  - rewrite package_msg. destruct (slot_msg s2) as [m|]; [|reflexivity]. cbn [foreign_cfg fc_msg as_state fs_env]. rewrite package_msgs. destruct (run_msgs (nc_msg c) (rs_w s2, m)) as [[w m'] v].
    assert (Q : forall w, f_env (w, rs_set s2) (f_put m' (as_state s2)) = as_state (with_w w (put_msg m' s2))).
    { intros w0. rewrite package_put. unfold as_state, f_env, with_w, put_msg, with_slot. destruct s2 as [w2 d2 st2 sl2 al2]. cbn. now destruct sl2. }
    destruct v; cbn [fst snd]; now rewrite <- Q.
  - cbn [foreign_cfg fc_unmarshal_err]. destruct (nc_unmarshal_err c) as [f|]; [|reflexivity]. unfold unaware. cbn [as_state fs_env fst snd]. destruct (f (rs_w s2) o e) as [w [[] r]]; reflexivity.
Qed.
Theorem package_line l s : f_line P (foreign_cfg c) l (as_state s) = (fst (process_line c l s), as_state (snd (process_line c l s))).
Proof.
  unfold f_line, process_line. destruct (negb _); [reflexivity|]. destruct (contains_byte x00 l); [reflexivity|]. destruct (removelast l) as [|b l'].
  - cbn [foreign_cfg fc_keep_alive]. destruct (nc_keep_alive c) as [f|]; [|reflexivity]. unfold unaware. cbn [as_state fs_env fst snd]. destruct (f (rs_w s)) as [w [e|]]; reflexivity.
  - cbn [foreign_cfg fc_raw fc_max_cmd as_state fs_env]. destruct (beq b "$").
    + destruct (match cut " " l' with Some (a, r) => (a, r) | None => (l', []) end) as [cmd d]. rewrite package_raws. destruct (run_raw (nc_raw c) (rs_w s) (Some cmd) d) as [w [| |e]]; try reflexivity.
      destruct cmd as [|y cmd]; [reflexivity|]. destruct (_ <? _)%Z; [reflexivity|]. destruct (negb _); [reflexivity|]. exact (package_accept _ _ _ (with_w w s)).
    + rewrite package_raws. destruct (run_raw (nc_raw c) (rs_w s) None (b :: l')) as [w [| |e]]; try reflexivity. exact (package_accept _ _ _ (with_w w s)).
Qed.

Lemma package_read : forall ls s (r : reader W Z) (q : reader (env W) Z), supplies act r ls -> supplies act q ls -> exists y s' r' q' ls' f0, supplies act r' ls' /\ supplies act q' ls' /\
  forall f g, f0 <= f -> f0 <= g -> read_to act f g c s r = Some (y, s', r') /\ f_read P act f g (foreign_cfg c) (as_state s) q = Some (y, as_state s', q').
Proof.
  induction ls as [|l ls IH]; intros s r q H H'.
  - destruct (supplies_end act r H) as (rest & r' & K1 & K2). destruct (K1 (rs_w s)) as [f0 Hf]. destruct (supplies_end act q H') as (rest' & q' & K1' & K2'). destruct (K1' (rs_w s, rs_set s)) as [f0' Hf'].
    exists (LReturn (Some EEOF)), s, r', q', [], (S (Nat.max f0 f0')). split; [exact K2|]. split; [exact K2'|]. intros f g L1 L2. destruct f as [|f]; [lia|]. cbn [read_to f_read as_state fs_env]. rewrite Hf, Hf' by lia. split; [now destruct s|reflexivity].
  - inversion H as [| |? ? r1 ? K1 K2]; subst. inversion H' as [| |? ? q1 ? K1' K2']; subst. destruct (K1 (rs_w s)) as [f0 Hf]. destruct (K1' (rs_w s, rs_set s)) as [f0' Hf'].
    destruct (process_line c l s) as [y s'] eqn:E. pose proof (package_line l s) as E'. rewrite E in E'. cbn [fst snd] in E'.
    assert (SW : with_w (rs_w s) s = s) by now destruct s.
    destruct y as [|e|].
    + destruct (IH s' r1 q1 K2 K2') as (y & s2 & r' & q' & ls' & f1 & L1 & L1' & L2). exists y, s2, r', q', ls', (S (Nat.max (Nat.max f0 f0') f1)). split; [exact L1|]. split; [exact L1'|].
      intros f g M1 M2. destruct f as [|f]; [lia|]. cbn [read_to f_read as_state fs_env]. rewrite Hf, Hf' by lia. rewrite SW, package_env, SW, E, E'. apply L2; lia.
    + exists (LReturn e), s', r1, q1, ls, (S (Nat.max f0 f0')). split; [exact K2|]. split; [exact K2'|]. intros f g M1 M2. destruct f as [|f]; [lia|]. cbn [read_to f_read as_state fs_env]. rewrite Hf, Hf' by lia. rewrite SW, package_env, SW, E, E'. split; reflexivity.
    + exists LCrash, s', r1, q1, ls, (S (Nat.max f0 f0')). split; [exact K2|]. split; [exact K2'|]. intros f g M1 M2. destruct f as [|f]; [lia|]. cbn [read_to f_read as_state fs_env]. rewrite Hf, Hf' by lia. rewrite SW, package_env, SW, E, E'. split; reflexivity.
Qed.
Lemma package_call k ls w dec (r : reader W Z) (q : reader (env W) Z) : supplies act r ls -> supplies act q ls -> exists o w' dec' r' q' ls', supplies act r' ls' /\ supplies act q' ls' /\
  eventually (fun f => do_call act f k w (mkNreader r dec c) = Some (o, w', mkNreader r' dec' c) /\ f_call P act f (foreign_cfg c) (as_call k) (w, dec) q = Some (as_answer o, (w', dec'), q')).
Proof.
  intros H H'. destruct k as [|m|[|m ms]]; cbn [as_call f_call do_call].
  - destruct (package_read ls (mkRs w dec dec SNil []) r q H H') as (y & s & r' & q' & ls' & f0 & K & K' & E). eexists _, _, (rs_set s), r', q', ls'. split; [exact K|]. split; [exact K'|]. exists f0. intros f L. destruct (E f f L L) as [E1 E2].
    unfold read_msg, read_call. cbn [nr_cfg nr_dec nr_line]. rewrite E1. unfold as_state at 1 in E2. cbn [as_slot rs_slot rs_w rs_set rs_dec rs_allowed] in E2. cbn [snd]. rewrite E2, package_msg.
    instantiate (2 := RNew (match y with LReturn None => Ok (slot_msg s) | LReturn (Some e) => Err e | _ => Panic end)). instantiate (1 := rs_w s). destruct y as [|[e|]|]; split; reflexivity.
  - destruct (package_read ls (mkRs w dec dec (SOwn m) []) r q H H') as (y & s & r' & q' & ls' & f0 & K & K' & E). eexists _, _, (rs_set s), r', q', ls'. split; [exact K|]. split; [exact K'|]. exists f0. intros f L. destruct (E f f L L) as [E1 E2].
    unfold read_msg_to, read_call. cbn [nr_cfg nr_dec nr_line]. rewrite E1. unfold as_state at 1 in E2. cbn [as_slot rs_slot rs_w rs_set rs_dec rs_allowed] in E2. cbn [snd]. rewrite E2, package_msg. split; reflexivity.
  - exists (RAny Panic []), w, dec, r, q, ls. split; [exact H|]. split; [exact H'|]. exists 0. intros f _. split; reflexivity.
  - destruct (package_read ls (mkRs w dec dec SNil (m :: ms)) r q H H') as (y & s & r' & q' & ls' & f0 & K & K' & E). eexists _, _, (rs_set s), r', q', ls'. split; [exact K|]. split; [exact K'|]. exists f0. intros f L. destruct (E f f L L) as [E1 E2].
    unfold read_msg_any, read_call. cbn [nr_cfg nr_dec nr_line]. rewrite E1. unfold as_state at 1 in E2. cbn [as_slot rs_slot rs_w rs_set rs_dec rs_allowed] in E2. cbn [snd]. rewrite E2. split; [reflexivity|]. cbn [as_answer as_state fs_slot fs_allowed fs_env].
    f_equal. f_equal. f_equal. f_equal. destruct y as [|[e|]|]; try reflexivity. now destruct (rs_slot s).
Qed.
Theorem package_calls : forall ks ls w dec (r : reader W Z) (q : reader (env W) Z), supplies act r ls -> supplies act q ls -> exists os w' R' q',
  eventually (fun f => do_calls act f ks w (mkNreader r dec c) = Some (os, w', R') /\ f_calls P act f (foreign_cfg c) (map as_call ks) (w, dec) q = Some (map as_answer os, (w', nr_dec R'), q')).
Proof.
  induction ks as [|k ks IH]; intros ls w dec r q H H'.
  - exists [], w, (mkNreader r dec c), q. exists 0. intros f _. split; reflexivity.
  - destruct (package_call k ls w dec r q H H') as (o & w1 & dec1 & r1 & q1 & ls1 & H1 & H1' & E1). destruct (IH ls1 w1 dec1 r1 q1 H1 H1') as (os & w2 & R2 & q2 & E2). exists (o :: os), w2, R2, q2.
    eapply eventually_mono; [|exact (eventually_and _ _ E1 E2)]. intros f [[K1 K1'] [K2 K2']]. cbn [do_calls map f_calls]. now rewrite K1, K1', K2, K2'.
Qed.
End Package.

(** ** SetDecoder during a call *)
Section Alike.
Context {W A Z : Type} (act : Z -> zaction Z).
Variables (M N : rmethods W A) (c d : fcfg W A).
Hypothesis (AM : alike_rmethods M N) (AC : alike_cfg c d).
(** States that differ in the stored decoder only. *)
Definition sim (x y : fstate W A) : Prop := same_program (fs_env x) (fs_env y) /\ fs_dec x = fs_dec y /\ fs_slot x = fs_slot y /\ fs_allowed x = fs_allowed y.
(** Steps to such states. *)
Definition simstep {R} (p q : R * fstate W A) : Prop := fst p = fst q /\ sim (snd p) (snd q).
Lemma sim_env s t x y : same_program s t -> sim x y -> sim (f_env s x) (f_env t y).
Proof. intros H (_ & H2 & H3 & H4). repeat split; assumption. Qed.
Lemma sim_msg x y : sim x y -> f_msg x = f_msg y.
Proof. intros (_ & _ & H3 & H4). unfold f_msg. now rewrite H3, H4. Qed.
Lemma sim_slot o x y : sim x y -> sim (f_slot o x) (f_slot o y).
Proof. intros (H1 & H2 & H3 & H4). repeat split; assumption. Qed.
Lemma sim_put a x y : sim x y -> sim (f_put a x) (f_put a y).
Proof. intros H. pose proof H as (H1 & H2 & H3 & H4). unfold f_put. rewrite H3. destruct (fs_slot y); [now apply sim_slot..|]. repeat split; cbn; try assumption. now rewrite H4. Qed.

Lemma sim_choose cmd args x y : sim x y -> match f_choose M cmd args x, f_choose N cmd args y with inl e, inl e' => e = e' | inr x', inr y' => sim x' y' | _, _ => False end.
Proof.
  intros H. pose proof H as (_ & _ & _ & H4). destruct AM as (T & K & NW & CH & _). unfold f_choose. rewrite H4.
  assert (RC : forall a, f_chat M a = f_chat N a) by (intros a; unfold f_chat; now rewrite K). assert (RR : forall a, f_raw M a = f_raw N a) by (intros a; unfold f_raw; now rewrite K).
  rewrite (first_index_ext _ (fun a => match cmd with Some t => (f_raw N a || bytes_eqb (r_type N a) t)%bool | None => (f_raw N a || f_chat N a)%bool end)) by (intros a; now rewrite RC, RR, T).
  set (typ := match cmd with Some t => t | None => [] end).
  assert (Q : forall x1 y1, sim x1 y1 -> match
      match f_msg x1, cmd with
      | None, Some t => inr (f_slot (FOwn (r_new M t)) x1)
      | None, None => inr (f_slot (FOwn (r_chat M)) x1)
      | Some a, Some t => if f_chat M a then inl (EUnexpectedCmd [] typ args) else if bytes_eqb (r_type M a) t then inr x1 else inl (EUnexpectedCmd (r_type M a) typ args)
      | Some a, None => if f_chat M a then inr x1 else inl (EUnexpectedCmd (r_type M a) typ args)
      end,
      match f_msg y1, cmd with
      | None, Some t => inr (f_slot (FOwn (r_new N t)) y1)
      | None, None => inr (f_slot (FOwn (r_chat N)) y1)
      | Some a, Some t => if f_chat N a then inl (EUnexpectedCmd [] typ args) else if bytes_eqb (r_type N a) t then inr y1 else inl (EUnexpectedCmd (r_type N a) typ args)
      | Some a, None => if f_chat N a then inr y1 else inl (EUnexpectedCmd (r_type N a) typ args)
      end with inl e, inl e' => e = e' | inr x', inr y' => sim x' y' | _, _ => False end).
  { intros x1 y1 S1. rewrite (sim_msg _ _ S1). destruct (f_msg y1) as [a|], cmd as [t|]; rewrite ?RC, ?T, ?NW, ?CH; try (now apply sim_slot); destruct (f_chat N a); auto. destruct (bytes_eqb (r_type N a) t); auto. }
  destruct (fs_allowed y) as [|a0 l]; [exact (Q x y H)|]. destruct (first_index _ (a0 :: l)) as [i|]; [|now rewrite T]. apply Q. now apply sim_slot.
Qed.
Lemma sim_decode args x y : sim x y -> sim (fst (f_decode M c args x)) (fst (f_decode N d args y)) /\ snd (f_decode M c args x) = snd (f_decode N d args y).
Proof.
  intros H. pose proof H as (H1 & H2 & H3 & H4). destruct AM as (_ & _ & _ & _ & U). destruct AC as (_ & _ & _ & UN & _). unfold f_decode. rewrite (sim_msg _ _ H). destruct (f_msg y) as [a|]; [|auto].
  pose proof (U a (fs_dec x) (fs_env x) (fs_env y) args H1) as U1. rewrite H2 in U1 |- *. destruct (r_unmarshal M a (fs_dec y) (fs_env x) args) as [[s1 a1] r1]. destruct (r_unmarshal N a (fs_dec y) (fs_env y) args) as [[t1 b1] q1]. destruct U1 as (U1 & <- & <-).
  assert (S1 : sim (f_put a1 (f_env s1 x)) (f_put a1 (f_env t1 y))) by now apply sim_put, sim_env.
  unfold alike_opt in UN. destruct (fc_unknown c) as [f|], (fc_unknown d) as [g|]; try contradiction; [|auto]. destruct r1 as [u|[ | | | |text| ]|]; auto.
  destruct (UN s1 t1 text U1) as [V1 V2]. destruct (f s1 text) as [[w2 k2] v]. destruct (g t1 text) as [[w2' k2'] v']. cbn in V1, V2. unfold same_program in V1. cbn in V1. subst w2' v'.
  destruct v as [dec|e]; [|cbn [fst snd]; split; [apply sim_env; [reflexivity|exact S1]|reflexivity]].
  set (s3 := match dec with Some _ => (fst (w2, k2), dec) | None => (w2, k2) end). set (t3 := match dec with Some _ => (fst (w2, k2'), dec) | None => (w2, k2') end). assert (V3 : same_program s3 t3) by (unfold s3, t3; now destruct dec).
  cbv zeta. pose proof (U a1 dec s3 t3 (match dec with Some _ => args | None => to_valid args end) V3) as U2.
  destruct (r_unmarshal M a1 dec s3 _) as [[s4 a2] r2]. destruct (r_unmarshal N a1 dec t3 _) as [[t4 b2] q2]. destruct U2 as (U2 & <- & <-). cbn [fst snd]. split; [|reflexivity]. apply sim_put. destruct S1 as (_ & _ & S3 & S4). repeat split; cbn; assumption.
Qed.
Lemma sim_raws cmd args : forall (hs ks : list (env W -> option bytes -> bytes -> env W * hook_res)) s t, Forall2 (fun f g => forall s t cmd args, same_program s t -> same_result (f s cmd args) (g t cmd args)) hs ks -> same_program s t ->
  same_result (run_raw hs s cmd args) (run_raw ks t cmd args).
Proof.
  intros hs ks s t F. revert s t. induction F as [|h k hs ks HK _ IH]; intros s t S1; [split; [exact S1|reflexivity]|]. cbn [run_raw]. destruct (HK s t cmd args S1) as [V1 V2].
  destruct (h s cmd args) as [s1 v]. destruct (k t cmd args) as [t1 v']. cbn in V1, V2. subst v'. destruct v; [now apply IH|split; [exact V1|reflexivity]..].
Qed.
Lemma sim_msgs : forall (hs ks : list (env W * A -> (env W * A) * hook_res)) s t a, Forall2 (fun f g => forall s t a, same_program s t -> same_program (fst (fst (f (s, a)))) (fst (fst (g (t, a)))) /\
    snd (fst (f (s, a))) = snd (fst (g (t, a))) /\ snd (f (s, a)) = snd (g (t, a))) hs ks -> same_program s t ->
  same_program (fst (fst (f_msgs hs (s, a)))) (fst (fst (f_msgs ks (t, a)))) /\ snd (fst (f_msgs hs (s, a))) = snd (fst (f_msgs (W:=W) (A:=A) ks (t, a))) /\ snd (f_msgs hs (s, a)) = snd (f_msgs ks (t, a)).
Proof.
  intros hs ks s t a F. revert s t a. induction F as [|h k hs ks HK _ IH]; intros s t a S1; [repeat split; exact S1|]. cbn [f_msgs]. destruct (HK s t a S1) as (V1 & V2 & V3).
  destruct (h (s, a)) as [[s1 a1] v]. destruct (k (t, a)) as [[t1 b1] v']. cbn in V1, V2, V3. subst b1 v'. destruct v; [now apply IH|repeat split; exact V1..].
Qed.
Lemma sim_accept o cmd args x y : sim x y -> simstep (f_accept M c o cmd args x) (f_accept N d o cmd args y).
Proof.
  intros H. unfold f_accept. pose proof (sim_choose cmd args x y H) as CH. destruct (f_choose M cmd args x) as [e|x1], (f_choose N cmd args y) as [e'|y1]; try contradiction.
  { subst e'. split; [reflexivity|exact H]. }
  destruct (sim_decode args x1 y1 CH) as [D1 D2]. destruct (f_decode M c args x1) as [x2 r]. destruct (f_decode N d args y1) as [y2 r']. cbn [fst snd] in D1, D2. subst r'. destruct AC as (_ & _ & _ & _ & UE & MS).
  destruct r as [e|[[]|e|]]; [split; [reflexivity|exact D1]| | |split; [reflexivity|exact D1]].
  - rewrite (sim_msg _ _ D1). destruct (f_msg y2) as [a|]; [|split; [reflexivity|exact D1]]. pose proof D1 as (D3 & _). destruct (sim_msgs _ _ _ _ a MS D3) as (V1 & V2 & V3).
    destruct (f_msgs (fc_msg c) (fs_env x2, a)) as [[s1 a1] v]. destruct (f_msgs (fc_msg d) (fs_env y2, a)) as [[t1 b1] v']. cbn in V1, V2, V3. subst b1 v'. destruct v; (split; [reflexivity|]); apply sim_env; [exact V1|now apply sim_put|exact V1|now apply sim_put|exact V1|now apply sim_put].
  - unfold alike_opt in UE. destruct (fc_unmarshal_err c) as [f|], (fc_unmarshal_err d) as [g|]; try contradiction; [|split; [reflexivity|exact D1]].
    pose proof D1 as (D3 & _). destruct (UE _ _ o e D3) as [V1 V2]. destruct (f (fs_env x2) o e) as [s1 v]. destruct (g (fs_env y2) o e) as [t1 v']. cbn in V1, V2. subst v'. destruct v as [[] r]; (split; [reflexivity|]); now apply sim_env.
Qed.
Lemma sim_line l x y : sim x y -> simstep (f_line M c l x) (f_line N d l y).
Proof.
  intros H. pose proof H as (H1 & _). unfold f_line. assert (E : forall r : lstep, simstep (r, x) (r, y)) by (intros r; split; [reflexivity|exact H]).
  destruct (negb _); [apply E|]. destruct (contains_byte x00 l); [apply E|]. pose proof AC as (MC & KA & RW & _). destruct (removelast l) as [|b l'].
  - unfold alike_opt in KA. destruct (fc_keep_alive c) as [f|], (fc_keep_alive d) as [g|]; try contradiction; [|apply E]. destruct (KA _ _ H1) as [V1 V2]. destruct (f (fs_env x)) as [s1 v]. destruct (g (fs_env y)) as [t1 v']. cbn in V1, V2. subst v'. destruct v; (split; [reflexivity|]); now apply sim_env.
  - assert (ACC : forall cmd args, match run_raw (fc_raw c) (fs_env x) cmd args, run_raw (fc_raw d) (fs_env y) cmd args with (s, v), (t, v') => v = v' /\ sim (f_env s x) (f_env t y) end).
    { intros cmd args. destruct (sim_raws cmd args _ _ _ _ RW H1) as [V1 V2]. destruct (run_raw (fc_raw c) _ _ _) as [s1 v]. destruct (run_raw (fc_raw d) _ _ _) as [t1 v']. cbn in V1, V2. split; [exact V2|now apply sim_env]. }
    destruct (beq b "$").
    + destruct (match cut " " l' with Some (a, r) => (a, r) | None => (l', []) end) as [cmd args]. specialize (ACC (Some cmd) args). destruct (run_raw (fc_raw c) _ _ _) as [s1 v]. destruct (run_raw (fc_raw d) _ _ _) as [t1 v']. destruct ACC as [<- S1].
      destruct v; [|split; [reflexivity|exact S1]..]. destruct cmd as [|z cmd]; [split; [reflexivity|exact S1]|]. rewrite MC. destruct (_ <? _)%Z; [split; [reflexivity|exact S1]|]. destruct (negb _); [split; [reflexivity|exact S1]|]. now apply sim_accept.
    + specialize (ACC None (b :: l')). destruct (run_raw (fc_raw c) _ _ _) as [s1 v]. destruct (run_raw (fc_raw d) _ _ _) as [t1 v']. destruct ACC as [<- S1]. destruct v; [|split; [reflexivity|exact S1]..]. now apply sim_accept.
Qed.
Lemma sim_read : forall ls x y (r : reader (env W) Z), sim x y -> supplies act r ls -> exists v x' y' r' f0, sim x' y' /\ forall f g, f0 <= f -> f0 <= g ->
  f_read M act f g c x r = Some (v, x', r') /\ f_read N act f g d y r = Some (v, y', r').
Proof.
  induction ls as [|l ls IH]; intros x y r S1 H.
  - destruct (supplies_end act r H) as (rest & r' & K1 & K2). destruct (K1 (fs_env x)) as [f0 Hf]. destruct (K1 (fs_env y)) as [f1 Hf1]. exists (LReturn (Some EEOF)), x, y, r', (S (Nat.max f0 f1)). split; [exact S1|].
    intros f g L1 L2. destruct f as [|f]; [lia|]. cbn [f_read]. rewrite Hf, Hf1 by lia. rewrite !f_env_same. split; reflexivity.
  - inversion H as [| |? ? r1 ? K1 K2]; subst. destruct (K1 (fs_env x)) as [f0 Hf]. destruct (K1 (fs_env y)) as [f1 Hf1]. destruct (sim_line l x y S1) as [V S2]. destruct (f_line M c l x) as [v x'] eqn:E. destruct (f_line N d l y) as [v' y'] eqn:E'. cbn [fst snd] in V, S2. subst v'.
    destruct v as [|e|].
    + destruct (IH x' y' r1 S2 K2) as (v & x2 & y2 & r2 & f2 & L1 & L2). exists v, x2, y2, r2, (S (Nat.max (Nat.max f0 f1) f2)). split; [exact L1|].
      intros f g M1 M2. destruct f as [|f]; [lia|]. cbn [f_read]. rewrite Hf, Hf1 by lia. rewrite !f_env_same, E, E'. apply L2; lia.
    + exists (LReturn e), x', y', r1, (S (Nat.max f0 f1)). split; [exact S2|]. intros f g M1 M2. destruct f as [|f]; [lia|]. cbn [f_read]. rewrite Hf, Hf1 by lia. rewrite !f_env_same, E, E'. split; reflexivity.
    + exists LCrash, x', y', r1, (S (Nat.max f0 f1)). split; [exact S2|]. intros f g M1 M2. destruct f as [|f]; [lia|]. cbn [f_read]. rewrite Hf, Hf1 by lia. rewrite !f_env_same, E, E'. split; reflexivity.
Qed.
Theorem sim_call k ls w dec (r : reader (env W) Z) : supplies act r ls -> exists o w' dec1 dec2 r',
  eventually (fun f => f_call M act f c k (w, dec) r = Some (o, (w', dec1), r') /\ f_call N act f d k (w, dec) r = Some (o, (w', dec2), r')).
Proof.
  intros H. assert (R0 : forall o l, sim (mkFs (w, dec) dec o l) (mkFs (w, dec) dec o l)) by (intros; repeat split).
  destruct k as [|a|[|a l]|e]; cbn [f_call snd].
  - destruct (sim_read ls _ _ r (R0 FNil []) H) as (v & x & y & r' & f0 & S1 & E). pose proof S1 as (S2 & _). pose proof (sim_msg _ _ S1) as SM. destruct (fs_env x) as [w1 d1] eqn:E1, (fs_env y) as [w2 d2] eqn:E2. cbn in S2. unfold same_program in S2. cbn in S2. subst w2.
    eexists _, w1, d1, d2, r'. exists f0. intros f L. destruct (E f f L L) as [-> ->]. rewrite E1, E2, SM. split; reflexivity.
  - destruct (sim_read ls _ _ r (R0 (FOwn a) []) H) as (v & x & y & r' & f0 & S1 & E). pose proof S1 as (S2 & _). pose proof (sim_msg _ _ S1) as SM. destruct (fs_env x) as [w1 d1] eqn:E1, (fs_env y) as [w2 d2] eqn:E2. unfold same_program in S2. cbn in S2. subst w2.
    eexists _, w1, d1, d2, r'. exists f0. intros f L. destruct (E f f L L) as [-> ->]. rewrite E1, E2, SM. split; reflexivity.
  - exists (FRAny Panic []), w, dec, dec, r. exists 0. intros f _. split; reflexivity.
  - destruct (sim_read ls _ _ r (R0 FNil (a :: l)) H) as (v & x & y & r' & f0 & S1 & E). pose proof S1 as (S2 & _ & S3 & S4). destruct (fs_env x) as [w1 d1] eqn:E1, (fs_env y) as [w2 d2] eqn:E2. unfold same_program in S2. cbn in S2. subst w2.
    eexists _, w1, d1, d2, r'. exists f0. intros f L. destruct (E f f L L) as [-> ->]. rewrite E1, E2, S3, S4. split; reflexivity.
  - exists FRSet, w, e, e, r. exists 0. intros f _. split; reflexivity.
Qed.
End Alike.
