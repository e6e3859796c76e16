(** Proofs for property C115: the calls of the message reader on a stream of lines. *)
From Verif Require Import Base BaseFacts Utf8 SpecText SpecHash SpecNmdc SpecRead NmdcText NmdcChat NmdcMessage SpecFrame SpecReuse NmdcDecodeFacts NmdcReuseFacts NmdcReadMsg NmdcOverFacts.
From Verif Require Import LineReader SpecLine LineReaderStream NmdcReader SpecReader NmdcReaderFacts SpecStream NmdcCrashFacts NmdcRetryFacts NmdcStreamFacts SpecNmdcLeft NmdcLeftFacts SpecNmdcUnknown NmdcUnknownFacts SpecCalls.
From Coq Require Import Lia.

Lemma kind_trans a b c : same_kind a b -> same_kind b c -> same_kind a c.
Proof. destruct a, b; cbn; try contradiction; intros H; destruct c; cbn; try contradiction; try congruence; auto. Qed.

(** ** Decoding *)
Lemma attempted dec o a m r : sized o -> msg_unmarshal dec o a = (m, r) -> attempt dec o a m r.
Proof.
  intros SZ E. pose proof (kind_after dec o a) as K. rewrite E in K. cbn [fst] in K. destruct r as [[]|e|].
  - apply at_stored. now apply decoded_over.
  - apply at_failed.
    + now apply (failed_left dec o a m e).
    + intros text. rewrite <- (unknown_iff dec o a text SZ), E. split; [intros ->; eauto|intros [m' [= _ ->]]; reflexivity].
  - assert (P : snd (msg_unmarshal dec o a) = Panic) by now rewrite E. apply msg_panics in P as [[s ->] C]; [|exact SZ]. now apply (at_crash _ _ _ _ s).
Qed.
Lemma retried dec d o a m1 text m : sized o -> msg_unmarshal dec o a = (m1, Err (EUnknownEnc text)) -> msg_unmarshal d m1 a = (m, Ok tt) -> reads_over d o a m.
Proof.
  intros SZ E F. pose proof (again dec d o a text SZ) as AG. rewrite E in AG. cbn [fst snd] in AG. specialize (AG eq_refl). rewrite F in AG.
  destruct (msg_unmarshal d o a) as [m3 r3] eqn:G. destruct AG as [AG1 AG2]. cbn in AG1, AG2. subst r3. rewrite (AG2 eq_refl). now apply decoded_over.
Qed.

(** ** Callbacks *)
Lemma raw_polled {W} cmd a : forall (hs : list (W -> option bytes -> bytes -> W * hook_res)) w w' v, run_raw hs w cmd a = (w', v) -> polled (map (fun h w => h w cmd a) hs) w w' v.
Proof.
  induction hs as [|h hs IH]; intros w w' v E; cbn in E |- *.
  - injection E as <- <-. constructor.
  - destruct (h w cmd a) as [w1 [| |e]] eqn:H.
    + apply (po_next _ _ _ w1); auto.
    + injection E as <- <-. apply po_stop; [exact H|discriminate].
    + injection E as <- <-. apply po_stop; [exact H|discriminate].
Qed.
Lemma msg_polled {W} : forall (hs : list (W * msg -> (W * msg) * hook_res)) w w' v, run_msgs hs w = (w', v) -> polled hs w w' v.
Proof.
  induction hs as [|h hs IH]; intros w w' v E; cbn [run_msgs] in E |- *.
  - injection E as <- <-. constructor.
  - destruct (h w) as [w1 [| |e]] eqn:H.
    + apply (po_next _ _ _ w1); auto.
    + injection E as <- <-. apply po_stop; [exact H|discriminate].
    + injection E as <- <-. apply po_stop; [exact H|discriminate].
Qed.

(** ** Targets *)
Definition target_sized (t : target) : Prop := match t with One None => True | One (Some m) => sized m | Many ms => ms <> [] /\ Forall sized ms end.
(** The target as the model's state. *)
Definition holds {W} (s : rstate W) (t : target) : Prop :=
  match t with
  | One o => rs_allowed s = [] /\ rs_slot s = match o with None => SNil | Some m => SOwn m end
  | Many ms => ms <> [] /\ rs_allowed s = ms
  end.
(** A type and a line for it. *)
Definition cmd_type (cmd : option bytes) : bytes := match cmd with Some t => t | None => [] end.

Lemma fits_chat m : fits [] m <-> is_chat m = true.
Proof. unfold fits. destruct m; cbn; split; try discriminate; try (intros [_ H]; destruct (H eq_refl); discriminate); intros _; split; eauto. Qed.
Lemma fits_cmd t m : t <> [] -> (fits t m <-> bytes_eqb (msg_type m) t = true).
Proof. intros N. unfold fits. rewrite bytes_eqb_true. split; [tauto|]. intros <-. split; [reflexivity|contradiction]. Qed.

Lemma first_index_some {A} (p : A -> bool) : forall l i, first_index p l = Some i ->
  exists a m b, l = a ++ m :: b /\ length a = i /\ Forall (fun x => p x = false) a /\ p m = true.
Proof.
  induction l as [|x l IH]; intros i E; [discriminate|]. cbn in E. destruct (p x) eqn:P.
  - injection E as <-. exists [], x, l. repeat split; auto.
  - destruct (first_index p l) as [j|] eqn:F; [|discriminate]. injection E as <-. destruct (IH j eq_refl) as (a & m & b & -> & <- & H & Q). exists (x :: a), m, b. repeat split; auto.
Qed.
Lemma first_index_none {A} (p : A -> bool) : forall l, first_index p l = None -> Forall (fun x => p x = false) l.
Proof. induction l as [|x l IH]; intros E; [constructor|]. cbn in E. destruct (p x) eqn:P; [discriminate|]. destruct (first_index p l); [discriminate|]. constructor; auto. Qed.
Lemma set_nth_at {A} (m m' : A) b : forall a, set_nth (length a) m' (a ++ m :: b) = a ++ m' :: b.
Proof. induction a as [|x a IH]; [reflexivity|]. cbn. now rewrite IH. Qed.
Lemma set_nth_twice {A} (m1 m2 : A) : forall l i, set_nth i m2 (set_nth i m1 l) = set_nth i m2 l.
Proof. induction l as [|x l IH]; intros [|i]; cbn; try reflexivity. now rewrite IH. Qed.
Lemma nth_set_nth {A} (m : A) : forall l i x, nth_error l i = Some x -> nth_error (set_nth i m l) i = Some m.
Proof. induction l as [|y l IH]; intros [|i] x E; try discriminate; cbn in *; [reflexivity|]. now apply (IH i x). Qed.
Lemma nth_error_at {A} (m : A) b : forall a, nth_error (a ++ m :: b) (length a) = Some m.
Proof. induction a as [|x a IH]; [reflexivity|]. exact IH. Qed.

Lemma raw_or_not m : (exists x d, m = MRaw x d) /\ is_raw m = true \/ (forall x d, m <> MRaw x d) /\ is_raw m = false.
Proof. destruct m; try (right; split; [discriminate|reflexivity]). left. split; [eauto|reflexivity]. Qed.
Lemma fits_dec limit cmd t m : of_type limit cmd t ->
  (match cmd with None => is_chat m | Some _ => bytes_eqb (msg_type m) t end = true <-> fits t m).
Proof. destruct cmd as [c|]; [intros [-> (N & _)]; now rewrite fits_cmd|]. intros ->. now rewrite fits_chat. Qed.

Lemma choose_says {W} limit cmd t a (s : rstate W) tg : of_type limit cmd t -> holds s tg ->
  (exists x, refuses t tg x /\ choose cmd a s = inl (EUnexpectedCmd x t a)) \/
  (exists i o put sl, picks t tg i o put /\ choose cmd a s = inr (with_slot sl s) /\ slot_msg (with_slot sl s) = Some o /\
     (match tg with Many _ => sl = SAllowed i | One _ => exists m, sl = SOwn m end) /\
     forall m (w : W) d st, holds (put_msg m (mkRs w d st sl (rs_allowed s))) (put m)).
Proof.
  intros T H. pose proof (fun m => fits_dec limit cmd t m T) as FD.
  assert (CT : match cmd with Some t => t | None => [] end = t) by (destruct cmd as [c|]; [now destruct T|now symmetry]).
  unfold choose. rewrite CT.
  set (acc := fun m : msg => match cmd with Some t0 => (is_raw m || bytes_eqb (msg_type m) t0)%bool | None => (is_raw m || is_chat m)%bool end).
  assert (AC : forall m, acc m = (is_raw m || match cmd with None => is_chat m | Some _ => bytes_eqb (msg_type m) t end)%bool) by (intros m; unfold acc; destruct cmd as [c|]; [destruct T as [-> _]|]; reflexivity).
  assert (NO : forall m, acc m = false -> passed_over t m).
  { intros m E. rewrite AC in E. apply Bool.orb_false_iff in E as [E1 E2]. split.
    - intros F. apply FD in F. congruence.
    - intros x d ->. discriminate. }
  (* the check of the message that was found *)
  assert (CHECK : forall (s1 : rstate W) m, slot_msg s1 = Some m ->
    match slot_msg s1, cmd with
    | None, Some t0 => inr (with_slot (SOwn (new_message t0)) s1)
    | None, None => inr (with_slot (SOwn (MChat chat0)) s1)
    | Some m, Some t0 => if is_chat m then inl (EUnexpectedCmd [] t a) else if bytes_eqb (msg_type m) t0 then inr s1 else inl (EUnexpectedCmd (msg_type m) t a)
    | Some m, None => if is_chat m then inr s1 else inl (EUnexpectedCmd (msg_type m) t a)
    end = (if match cmd with None => is_chat m | Some _ => bytes_eqb (msg_type m) t end then inr s1 else inl (EUnexpectedCmd (msg_type m) t a)) :> error + rstate W).
  { intros s1 m ->. destruct cmd as [c|]; [|reflexivity]. destruct T as [-> (N & _)]. destruct (is_chat m) eqn:C; [|reflexivity].
    destruct m; try discriminate. cbn [msg_type]. now rewrite (proj2 (bytes_eqb_false _ _)) by congruence. }
  destruct tg as [o|ms]; cbn [holds] in H.
  - destruct H as [HA HS]. rewrite HA. destruct o as [m|].
    + assert (SM : slot_msg s = Some m) by (unfold slot_msg; now rewrite HS). rewrite (CHECK s m SM).
      destruct (match cmd with None => is_chat m | Some _ => bytes_eqb (msg_type m) t end) eqn:E.
      * right. apply FD in E. exists 0, m, (fun m => One (Some m)), (SOwn m). split; [now constructor|]. split; [destruct s; cbn in HS |- *; now subst|]. split; [reflexivity|]. split; [eauto|]. intros m' w d st. split; reflexivity.
      * left. exists (msg_type m). split; [|reflexivity]. constructor. intros F. apply FD in F. congruence.
    + assert (SM : slot_msg s = None) by (unfold slot_msg; now rewrite HS). rewrite SM. right. exists 0, (new_message t), (fun m => One (Some m)), (SOwn (new_message t)).
      split; [constructor|]. split; [destruct cmd as [c|]; [now destruct T as [-> _]|cbn in T; now subst t]|]. split; [reflexivity|]. split; [eauto|]. intros m' w d st. split; reflexivity.
  - destruct H as [N HA]. rewrite HA. destruct ms as [|m0 ms]; [contradiction|]. fold acc. destruct (first_index acc (m0 :: ms)) as [i|] eqn:F.
    + apply first_index_some in F as (l1 & m & l2 & E & <- & P & Q). rewrite E in *. clear E.
      assert (SM : slot_msg (with_slot (SAllowed (length l1)) s) = Some m) by (unfold slot_msg, with_slot; cbn; rewrite HA; apply nth_error_at).
      assert (PO : Forall (passed_over t) l1) by (eapply Forall_impl; [|exact P]; exact NO).
      rewrite (CHECK _ m SM). destruct (match cmd with None => is_chat m | Some _ => bytes_eqb (msg_type m) t end) eqn:E.
      * right. apply FD in E. exists (length l1), m, (fun m' => Many (l1 ++ m' :: l2)), (SAllowed (length l1)). split; [now constructor|]. split; [reflexivity|]. split; [exact SM|]. split; [reflexivity|].
        intros m' w d st. unfold put_msg. cbn. split; [destruct l1; discriminate|]. apply set_nth_at.
      * left. destruct (raw_or_not m) as [[(x & d & ->) _]|[_ R]]; [|rewrite AC, R, E in Q; discriminate]. exists x. split; [|reflexivity]. constructor; [exact PO|]. intros K. apply FD in K. congruence.
    + left. exists (msg_type m0). split; [|reflexivity]. constructor. eapply Forall_impl; [|exact (first_index_none _ _ F)]. exact NO.
Qed.

Lemma picks_sized t tg i o put : picks t tg i o put -> target_sized tg -> sized o /\ forall m, sized m -> target_sized (put m).
Proof.
  intros P S1. destruct P as [|m F|a m b H F]; cbn in S1 |- *.
  - split; [apply new_message_cleared|auto].
  - auto.
  - destruct S1 as [_ S1]. apply Forall_app in S1 as [S1 S2]. inversion S2; subst. split; [assumption|]. intros m' K. split; [destruct a; discriminate|]. apply Forall_app. split; [exact S1|]. now constructor.
Qed.
(** The shape of the target is that of the call. *)
Definition shape (tg tg' : target) : Prop :=
  match tg, tg' with One None, One _ | One (Some _), One (Some _) | Many _, Many _ => True | _, _ => False end.
Lemma picks_shape t tg i o put m : picks t tg i o put -> shape tg (put m).
Proof. destruct 1; exact I. Qed.
Lemma shape_refl t : shape t t. Proof. destruct t as [[|]|]; exact I. Qed.
Lemma shape_trans a b c : shape a b -> shape b c -> shape a c.
Proof. destruct a as [[|]|], b as [[|]|], c as [[|]|]; cbn; auto. Qed.

Section Lines.
Context {W zstate : Type} (act : zstate -> zaction zstate).
Variable c : ncfg W.

(** The state of the specification. *)
Definition view (s : rstate W) (t : target) : at_line W := mkAt (rs_w s) (rs_dec s) (rs_set s) t.
(** The end of a line in the model and in the specification. *)
Definition agrees (x : lstep) (v : verdict) (s : rstate W) (t : target) : Prop :=
  match x, v with
  | LSkip, VNext => True
  | LReturn (Some e), VErr e' => e = e'
  | LReturn None, VDone i => match t with One o => o <> None | Many _ => rs_slot s = SAllowed i end
  | LCrash, VCrash => True
  | _, _ => False
  end.

(** The decoding of a line. *)
Lemma decode_says a (s : rstate W) o : slot_msg s = Some o -> sized o -> exists w now kept m r,
  decode_into c a s = (put_msg m (mkRs w now kept (rs_slot s) (rs_allowed s)), r) /\ sized m /\
  decodes (nc_unknown c) (rs_w s) (rs_dec s) (rs_set s) o a w now kept m r.
Proof.
  intros SM SZ. unfold decode_into. rewrite SM. destruct (msg_unmarshal (rs_dec s) o a) as [m1 r1] eqn:D.
  pose proof (sized_after (rs_dec s) o a SZ) as Z1. rewrite D in Z1. cbn [fst] in Z1. pose proof (attempted _ _ _ _ _ SZ D) as A1. cbv zeta.
  assert (E1 : forall m, put_msg m s = put_msg m (mkRs (rs_w s) (rs_dec s) (rs_set s) (rs_slot s) (rs_allowed s))) by now destruct s.
  assert (PLAIN : (forall g0 text, nc_unknown c = Some g0 -> r1 <> Err (EUnknownEnc text)) -> exists w now kept m r,
    (put_msg m1 s, inr r1) = (put_msg m (mkRs w now kept (rs_slot s) (rs_allowed s)), r) /\ sized m /\ decodes (nc_unknown c) (rs_w s) (rs_dec s) (rs_set s) o a w now kept m r).
  { intros H. exists (rs_w s), (rs_dec s), (rs_set s), m1, (inr r1). split; [now rewrite E1|]. split; [exact Z1|]. apply de_plain; [exact A1|].
    intros F t. destruct (nc_unknown c) as [g|]; [|contradiction]. now apply (H g). }
  destruct (nc_unknown c) as [f|] eqn:U; [|apply PLAIN; discriminate].
  destruct r1 as [u|[ | | | |text| ]|] eqn:R; try (apply PLAIN; discriminate).
  replace (rs_w (put_msg m1 s)) with (rs_w s) by (unfold put_msg, with_slot; now destruct (rs_slot s)).
  destruct (f (rs_w s) text) as [w1 [[d|]|e]] eqn:F.
  - destruct (msg_unmarshal (Some d) m1 a) as [m2 r2] eqn:D2. exists w1, (Some d), (Some d), m2, (inr r2).
    split; [|split].
    + f_equal. unfold put_msg, with_slot. destruct s as [w0 d0 st0 sl0 al0]. cbn in SM |- *. destruct sl0 as [| |i]; cbn; try reflexivity. now rewrite set_nth_twice.
    + pose proof (sized_after (Some d) m1 a Z1) as K. now rewrite D2 in K.
    + apply (de_decoder _ _ _ _ _ _ f text m1); auto; [now apply attempted|]. intros ->. now apply (retried (rs_dec s) _ _ _ m1 text).
  - destruct (msg_unmarshal None m1 (to_valid a)) as [m2 r2] eqn:D2. exists w1, None, (rs_set s), m2, (inr r2).
    split; [|split].
    + f_equal. unfold put_msg, with_slot. destruct s as [w0 d0 st0 sl0 al0]. cbn in SM |- *. destruct sl0 as [| |i]; cbn; try reflexivity. now rewrite set_nth_twice.
    + pose proof (sized_after None m1 (to_valid a) Z1) as K. now rewrite D2 in K.
    + apply (de_repaired _ _ _ _ _ _ f text m1 w1 (to_valid a)); auto using to_valid_repaired. now apply attempted.
  - exists w1, (rs_dec s), (rs_set s), m1, (inl e). split; [|split; [exact Z1|now apply (de_refused _ _ _ _ _ _ f text)]].
    f_equal. unfold put_msg, with_slot, with_w. destruct s as [w0 d0 st0 sl0 al0]. cbn. now destruct sl0.
Qed.

Hypothesis TY : typed c.
Lemma run_typed x : sized (snd x) -> sized (snd (fst (run_msgs (nc_msg c) x))).
Proof.
  pose proof TY as T0. unfold typed in T0. clear TY. revert x. induction T0 as [|h hs Hh _ IH]; intros x SX; [exact SX|]. cbn [run_msgs]. specialize (Hh x SX). destruct (h x) as [x' [| |e]]; cbn [fst] in Hh; [apply IH| |]; exact Hh.
Qed.
Lemma put_twice m m' (s : rstate W) : put_msg m' (put_msg m s) = put_msg m' s.
Proof. unfold put_msg, with_slot. destruct s as [w0 d0 st0 sl0 al0]. cbn. destruct sl0 as [| |i]; cbn; try reflexivity. now rewrite set_nth_twice. Qed.

Lemma process_handles l s tg : is_line "|"%byte l -> holds s tg -> target_sized tg ->
  exists x s' v tg', process_line c l s = (x, s') /\ handles c (view s tg) l v (view s' tg') /\ agrees x v s' tg' /\ holds s' tg' /\ target_sized tg' /\ shape tg tg'.
Proof.
  intros (body & -> & _) H SZ. change [ "|"%byte ] with (B "|").
  assert (SAME : forall x v (w : W), agrees x v (with_w w s) tg -> process_line c (body ++ B "|") s = (x, with_w w s) -> handles c (view s tg) (body ++ B "|") v (view (with_w w s) tg) ->
    exists x s' v tg', process_line c (body ++ B "|") s = (x, s') /\ handles c (view s tg) (body ++ B "|") v (view s' tg') /\ agrees x v s' tg' /\ holds s' tg' /\ target_sized tg' /\ shape tg tg').
  { intros x v w A P K. exists x, (with_w w s), v, tg. repeat (split; auto). apply shape_refl. }
  destruct body as [|b body'].
  { cbn [app] in *. pose proof (process_body c [] s (fun k => k)) as P. cbn [app] in P. destruct (nc_keep_alive c) as [f|] eqn:KA.
    - destruct (f (rs_w s)) as [w [e|]] eqn:F.
      + apply (SAME (LReturn (Some e)) (VErr e) w); [reflexivity|exact P|]. exact (ha_alive c (view s tg) f w (Some e) KA F).
      + apply (SAME LSkip VNext w); [exact I|exact P|]. exact (ha_alive c (view s tg) f w None KA F).
    - apply (SAME LSkip VNext (rs_w s)); [exact I|now rewrite with_w_same|]. rewrite with_w_same. now apply ha_silent. }
  set (body := b :: body') in *. assert (NE : body <> []) by discriminate. clearbody body. clear b body'.
  destruct (in_dec (fun x y => match beq_spec x y with ReflectT _ p => left p | ReflectF _ p => right p end) x00 body) as [Z|Z].
  { apply (SAME (LReturn (Some err_null)) (VErr err_null) (rs_w s)); [reflexivity|rewrite with_w_same; now apply process_nul|]. rewrite with_w_same. now apply ha_nul. }
  destruct (parsed_exists body NE) as (cmd & a & P). pose proof (process_parsed c body cmd a s Z P) as PP.
  destruct (run_raw (nc_raw c) (rs_w s) cmd a) as [w1 h] eqn:RR. assert (HH : heard c (al_w (view s tg)) body cmd a w1 h) by (split; [exact Z|split; [exact P|now apply raw_polled]]).
  destruct h as [| |e].
  2: { apply (SAME LSkip VNext w1); [exact I|exact PP|]. exact (ha_dropped c (view s tg) body cmd a w1 HH). }
  2: { apply (SAME (LReturn (Some e)) (VErr e) w1); [reflexivity|exact PP|]. exact (ha_stopped c (view s tg) body cmd a w1 e HH). }
  destruct (name_error c cmd) as [e|] eqn:NM.
  { apply (SAME (LReturn (Some e)) (VErr e) w1); [reflexivity|exact PP|]. destruct cmd as [t|]; [|discriminate]. apply (ha_name c (view s tg) body t a w1 e HH).
    unfold name_error in NM. destruct t as [|x t]; [injection NM as <-; constructor|]. destruct (Z.ltb_spec (nc_max_cmd c) (Z.of_nat (length (x :: t)))).
    - injection NM as <-. constructor; [discriminate|assumption].
    - destruct (is_ascii_name (x :: t)) eqn:AN; [discriminate|]. injection NM as <-. constructor; [discriminate|assumption|]. rewrite <- ascii_name_spec. congruence. }
  set (t := cmd_type cmd). assert (OT : of_type (nc_max_cmd c) cmd t) by (apply name_error_none in NM; destruct cmd; [split; [reflexivity|exact NM]|reflexivity]).
  set (s1 := with_w w1 s) in *. assert (H1 : holds s1 tg) by (destruct tg; exact H).
  unfold accept_line in PP. destruct (choose_says (nc_max_cmd c) cmd t a s1 tg OT H1) as [(x & RF & CH)|(i & o & put & sl & PK & CH & SM & SL & HO)]; rewrite CH in PP.
  { apply (SAME (LReturn (Some (EUnexpectedCmd x t a))) (VErr (EUnexpectedCmd x t a)) w1); [reflexivity|exact PP|]. exact (ha_type c (view s tg) body cmd t a w1 x HH OT RF). }
  destruct (picks_sized _ _ _ _ _ PK SZ) as [SO SP].
  destruct (decode_says a (with_slot sl s1) o SM SO) as (w2 & now & kept & m & r & DE & SZM & DC). rewrite DE in PP. cbn [rs_slot with_slot rs_allowed] in PP, DE.
  set (s2 := put_msg m (mkRs w2 now kept sl (rs_allowed s1))) in *.
  assert (F2 : rs_w s2 = w2 /\ rs_dec s2 = now /\ rs_set s2 = kept /\ slot_msg s2 = Some m /\ match tg with Many _ => rs_slot s2 = SAllowed i | One _ => True end).
  { unfold s2, put_msg, with_slot. destruct tg as [o'|ms].
    - destruct SL as [m' ->]. cbn. auto.
    - subst sl. cbn. repeat split; auto. unfold slot_msg. cbn. unfold slot_msg in SM. cbn in SM. now apply (nth_set_nth m _ _ o). }
  destruct F2 as (E1 & E2 & E3 & E4 & E5). pose proof (HO m w2 now kept) as H2. change (rs_allowed s) with (rs_allowed s1) in H2. fold s2 in H2.
  assert (SH : shape tg (put m)) by exact (picks_shape _ _ _ _ _ m PK).
  assert (PUT : forall w3 m', with_w w3 (put_msg m' s2) = with_w w3 (put_msg m' (mkRs w2 now kept sl (rs_allowed s1)))) by (intros w3 m'; unfold s2; now rewrite put_twice).
  assert (END' : forall x v w3 m', process_line c (body ++ B "|") s = (x, with_w w3 (put_msg m' s2)) -> concludes c body i w2 m r v w3 m' -> sized m' ->
    match x, v with LSkip, VNext | LCrash, VCrash => True | LReturn (Some e), VErr e' => e = e' | LReturn None, VDone j => j = i | _, _ => False end ->
    exists x s' v tg', process_line c (body ++ B "|") s = (x, s') /\ handles c (view s tg) (body ++ B "|") v (view s' tg') /\ agrees x v s' tg' /\ holds s' tg' /\ target_sized tg' /\ shape tg tg').
  { intros x v w3 m' Q CC SZ' AG. rewrite PUT in Q. set (s3 := put_msg m' (mkRs w2 now kept sl (rs_allowed s1))) in *.
    assert (F3 : rs_dec s3 = now /\ rs_set s3 = kept /\ match tg with Many _ => rs_slot s3 = SAllowed i | One _ => True end).
    { unfold s3, put_msg, with_slot. destruct tg as [o'|ms]; [destruct SL as [m0 ->]; cbn; auto|subst sl; cbn; auto]. }
    destruct F3 as (G2 & G3 & G5). pose proof (HO m' w2 now kept) as H3. change (rs_allowed s) with (rs_allowed s1) in H3. fold s3 in H3.
    exists x, (with_w w3 s3), v, (put m'). split; [exact Q|]. split; [|split; [|split; [|split; [now apply SP|exact (picks_shape _ _ _ _ _ m' PK)]]]].
    - unfold view at 2. cbn [with_w rs_w rs_dec rs_set]. rewrite G2, G3. exact (ha_decode c (view s tg) body cmd t a w1 i o put w2 now kept m r v w3 m' HH OT PK DC CC).
    - unfold agrees. destruct x as [|[e|]|], v; auto. subst i0. cbn [with_w rs_slot]. clear - PK G5. destruct PK; [discriminate..|exact G5].
    - revert H3. unfold holds. destruct (put m'); auto. }
  assert (END : forall x v w3, process_line c (body ++ B "|") s = (x, with_w w3 s2) -> concludes c body i w2 m r v w3 m ->
    match x, v with LSkip, VNext | LCrash, VCrash => True | LReturn (Some e), VErr e' => e = e' | LReturn None, VDone j => j = i | _, _ => False end ->
    exists x s' v tg', process_line c (body ++ B "|") s = (x, s') /\ handles c (view s tg) (body ++ B "|") v (view s' tg') /\ agrees x v s' tg' /\ holds s' tg' /\ target_sized tg' /\ shape tg tg').
  { intros x v w3 Q CC AG. exists x, (with_w w3 s2), v, (put m). split; [exact Q|]. split; [|split; [|split; [|split; [now apply SP|exact SH]]]].
    - unfold view at 2. cbn [with_w rs_w rs_dec rs_set]. rewrite E2, E3. exact (ha_decode c (view s tg) body cmd t a w1 i o put w2 now kept m r v w3 m HH OT PK DC CC).
    - unfold agrees. destruct x as [|[e|]|], v; auto. subst i0. cbn [with_w rs_slot]. clear - PK E5. destruct PK; [discriminate..|exact E5].
    - revert H2. unfold holds. destruct (put m); auto. }
  destruct r as [e|[[]|e|]].
  - apply (END (LReturn (Some e)) (VErr e) w2); [|constructor|reflexivity]. rewrite <- E1, with_w_same. exact PP.
  - rewrite E4, E1 in PP. pose proof (run_typed (w2, m) SZM) as SZ'. destruct (run_msgs (nc_msg c) (w2, m)) as [[w3 m'] h] eqn:RM. cbn [fst snd] in SZ'. apply msg_polled in RM.
    destruct h as [| |e]; [apply (END' (LReturn None) (VDone i) w3 m')|apply (END' LSkip VNext w3 m')|apply (END' (LReturn (Some e)) (VErr e) w3 m')]; auto; exact (cc_message c body i w2 m w3 m' _ RM).
  - destruct (nc_unmarshal_err c) as [f|] eqn:UE.
    + rewrite E1 in PP. destruct (f w2 body e) as [w3 [[] [e'|]]] eqn:F.
      * apply (END (LReturn (Some e')) (VErr e') w3); [|now apply (cc_replaced _ _ _ _ _ f)|reflexivity]. exact (eq_trans PP (f_equal _ eq_refl)).
      * apply (END (LReturn None) (VDone i) w3); [|now apply (cc_tolerated _ _ _ _ _ f)|reflexivity]. exact PP.
      * apply (END LSkip VNext w3); [exact PP|now apply (cc_ignored _ _ _ _ _ f e w3 (Some e'))|exact I].
      * apply (END LSkip VNext w3); [exact PP|now apply (cc_ignored _ _ _ _ _ f e w3 None)|exact I].
    + apply (END (LReturn (Some e)) (VErr e) w2); [|now constructor|reflexivity]. rewrite <- E1, with_w_same. exact PP.
  - apply (END LCrash VCrash w2); [|constructor|exact I]. rewrite <- E1, with_w_same. exact PP.
Qed.

(** One call. *)
Lemma through_call : forall ls s tg, Forall (is_line "|"%byte) ls -> holds s tg -> target_sized tg ->
  exists x s' ls' v tg', through c ls s = (x, s', ls') /\ one_call c (view s tg) ls v (view s' tg') ls' /\ agrees x v s' tg' /\ v <> VNext /\
    holds s' tg' /\ shape tg tg' /\ Forall (is_line "|"%byte) ls'.
Proof.
  induction ls as [|l ls IH]; intros s tg HL H SZ.
  - exists (LReturn (Some EEOF)), s, [], (VErr EEOF), tg. split; [reflexivity|]. split; [constructor|]. split; [reflexivity|]. split; [discriminate|]. split; [exact H|]. split; [apply shape_refl|constructor].
  - inversion HL as [|? ? H1 H2]; subst. destruct (process_handles l s tg H1 H SZ) as (x & s1 & v & tg1 & P & HA & AG & HO & SZ1 & SH). cbn [through]. rewrite P.
    destruct x as [|e|].
    + destruct v; try contradiction. destruct (IH s1 tg1 H2 HO SZ1) as (x & s2 & ls2 & v & tg2 & T & OC & AG2 & NV & HO2 & SH2 & FL).
      exists x, s2, ls2, v, tg2. split; [exact T|]. split; [now apply (oc_next _ _ _ _ (view s1 tg1))|]. repeat (split; auto). now apply (shape_trans _ tg1).
    + exists (LReturn e), s1, ls, v, tg1. split; [reflexivity|]. assert (NV : v <> VNext) by (intros ->; destruct e; contradiction). split; [now apply oc_done|]. auto 10.
    + exists LCrash, s1, ls, v, tg1. split; [reflexivity|]. assert (NV : v <> VNext) by (intros ->; contradiction). split; [now apply oc_done|]. auto 10.
Qed.

Lemma call_says k : forall ls w dec (r : reader W zstate), Forall (is_line "|"%byte) ls -> supplies act r ls -> call_sized k -> k <> CAny [] ->
  exists v s ls' o r', one_call c (mkAt w dec dec (call_target k)) ls v s ls' /\ answers k v (al_target s) o /\ Forall (is_line "|"%byte) ls' /\ supplies act r' ls' /\
    eventually (fun f => do_call act f k w (mkNreader r dec c) = Some (o, al_w s, mkNreader r' (al_kept s) c)).
Proof.
  intros ls w dec r HL HS SZ NE.
  set (o0 := match k with CInto m => SOwn m | _ => SNil end). set (al0 := match k with CAny ms => ms | _ => [] end).
  set (s0 := mkRs w dec dec o0 al0).
  assert (H0 : holds s0 (call_target k)) by (destruct k as [|m|ms]; cbn; auto; split; [congruence|reflexivity]).
  assert (Z0 : target_sized (call_target k)) by (destruct k as [|m|ms]; cbn; auto; split; [congruence|exact SZ]).
  destruct (through_call ls s0 (call_target k) HL H0 Z0) as (x & s' & ls' & v & tg' & T & OC & AG & NV & HO & SH & FL).
  destruct (supplies_through act c ls s0 r HS) as (r' & f0 & K1 & K2). rewrite T in K1, K2. cbn [fst snd] in K1, K2.
  assert (RC : forall f, f0 <= f -> read_call act f o0 al0 w (mkNreader r dec c) = Some (x, s', mkNreader r' (rs_set s') c)).
  { intros f L. unfold read_call. cbn [nr_cfg nr_dec nr_line]. fold s0. now rewrite K2 by lia. }
  assert (ANS : exists o, answers k v tg' o /\ forall f, f0 <= f -> do_call act f k w (mkNreader r dec c) = Some (o, rs_w s', mkNreader r' (rs_set s') c)).
  { destruct k as [|m|ms]; cbn [call_target shape] in SH; unfold o0, al0 in RC.
    - destruct tg' as [o|]; [|contradiction]. destruct HO as [_ HO]. assert (SM : slot_msg s' = o) by (unfold slot_msg; rewrite HO; now destruct o).
      exists (RNew (match x with LReturn None => Ok o | LReturn (Some e) => Err e | _ => Panic end)). split.
      + constructor. destruct x as [|[e|]|], v; cbn in AG; try contradiction; try subst e; constructor.
      + intros f L. cbn [do_call]. unfold read_msg. rewrite RC by exact L. rewrite SM. destruct x as [|[e|]|]; reflexivity.
    - destruct tg' as [[m'|]|]; try contradiction. destruct HO as [_ HO]. assert (SM : slot_msg s' = Some m') by (unfold slot_msg; now rewrite HO).
      exists (RInto (match x with LReturn None => Ok tt | LReturn (Some e) => Err e | _ => Panic end) m'). split.
      + constructor. destruct x as [|[e|]|], v; cbn in AG; try contradiction; try subst e; constructor.
      + intros f L. cbn [do_call]. unfold read_msg_to. rewrite RC by exact L. now rewrite SM.
    - destruct tg' as [|ms']; try contradiction. destruct HO as [_ HO].
      exists (RAny (match x with LReturn None => Ok (match rs_slot s' with SAllowed i => Some i | _ => None end) | LReturn (Some e) => Err e | _ => Panic end) ms'). split.
      + constructor. destruct x as [|[e|]|], v; cbn in AG; try contradiction; try subst e; try rewrite AG; constructor.
      + intros f L. cbn [do_call]. unfold read_msg_any. destruct ms as [|m0 ms0]; [congruence|]. rewrite RC by exact L. now rewrite HO. }
  destruct ANS as (o & A1 & A2). exists v, (view s' tg'), ls', o, r'. repeat (split; auto). exists f0. exact A2.
Qed.

Theorem calls_say : forall ks ls w dec (r : reader W zstate), Forall (is_line "|"%byte) ls -> supplies act r ls -> Forall call_sized ks ->
  exists os w2 dec2 R2, calls_on c w dec ls ks os w2 dec2 /\ eventually (fun f => do_calls act f ks w (mkNreader r dec c) = Some (os, w2, R2)) /\ nr_dec R2 = dec2.
Proof.
  induction ks as [|k ks IH]; intros ls w dec r HL HS SZ.
  - exists [], w, dec, (mkNreader r dec c). split; [constructor|]. split; [exists 0; reflexivity|reflexivity].
  - inversion SZ as [|? ? S1 S2]; subst. assert (D : k = CAny [] \/ k <> CAny []) by (destruct k as [| |[|]]; auto; right; discriminate). destruct D as [->|N].
    + destruct (IH ls w dec r HL HS S2) as (os & w2 & dec2 & R2 & C2 & E2 & F2). exists (RAny Panic [] :: os), w2, dec2, R2. split; [now constructor|]. split; [|exact F2].
      eapply eventually_mono; [|exact E2]. intros f E. cbn [do_calls do_call read_msg_any]. now rewrite E.
    + destruct (call_says k ls w dec r HL HS S1 N) as (v & s & ls' & o & r' & OC & AN & HL' & HS' & E1).
      destruct (IH ls' (al_w s) (al_kept s) r' HL' HS' S2) as (os & w2 & dec2 & R2 & C2 & E2 & F2).
      exists (o :: os), w2, dec2, R2. split; [now apply (co_call _ _ _ _ _ v s ls')|]. split; [|exact F2].
      eapply eventually_mono; [|exact (eventually_and _ _ E1 E2)]. intros f [K1 K2]. cbn [do_calls]. now rewrite K1, K2.
Qed.
End Lines.

(** ** A decoder that always gives UTF-8 *)
Section Settled.
Context {W zstate : Type} (act : zstate -> zaction zstate).
Variables (d : bytes -> option bytes) (c : ncfg W).
Hypothesis PD : proper d.

Lemma never_unknown m a text : snd (msg_unmarshal (Some d) m a) <> Err (EUnknownEnc text).
Proof. intros H. apply unknown_origin in H as (p & _ & H). apply text_unk in H as (u & _ & E & N). apply N. now apply (PD u). Qed.
(** The decoder is in use and kept. *)
Definition steady (s : rstate W) : Prop := rs_dec s = Some d /\ rs_set s = Some d.
Lemma steady_put m s : steady s -> steady (put_msg m s).
Proof. intros H. unfold put_msg, with_slot. destruct (rs_slot s); exact H. Qed.

Lemma settled_decode a s : steady s -> decode_into c a s = decode_into (without c) a s /\ steady (fst (decode_into c a s)).
Proof.
  intros H. pose proof H as [HD _]. unfold decode_into. destruct (slot_msg s) as [m|]; [|auto]. rewrite HD. pose proof (never_unknown m a) as N. destruct (msg_unmarshal (Some d) m a) as [m1 r1]. cbn [snd] in N. cbv zeta.
  change (nc_unknown (without c)) with (@None (W -> bytes -> W * (codec + error))).
  assert (E : match nc_unknown c, r1 with
    | Some f, Err (EUnknownEnc text) => match f (rs_w (put_msg m1 s)) text with
          | (w, inr e) => (with_w w (put_msg m1 s), inl e)
          | (w, inl dec) => let (m2, r2) := msg_unmarshal dec m1 (match dec with None => to_valid a | Some _ => a end) in
              (put_msg m2 (mkRs w dec (match dec with None => rs_set (put_msg m1 s) | Some _ => dec end) (rs_slot (put_msg m1 s)) (rs_allowed (put_msg m1 s))), inr r2) end
    | _, _ => (put_msg m1 s, inr r1) end = (put_msg m1 s, inr r1)).
  { destruct (nc_unknown c) as [f|]; [|reflexivity]. destruct r1 as [|[]|]; try reflexivity. now contradiction (N text). }
  rewrite E. split; [reflexivity|]. now apply steady_put.
Qed.
Lemma settled_choose cmd a s s' : steady s -> choose cmd a s = inr s' -> steady s'.
Proof.
  intros H. unfold choose. destruct (rs_allowed s) as [|m0 ms].
  - destruct (slot_msg s) as [m|], cmd; [destruct (is_chat m); [discriminate|destruct (bytes_eqb _ _); [|discriminate]]|destruct (is_chat m); [|discriminate]| |]; intros [= <-]; exact H.
  - destruct (first_index _ _) as [i|]; [|discriminate]. assert (H1 : steady (with_slot (SAllowed i) s)) by exact H. set (s1 := with_slot (SAllowed i) s) in *. clearbody s1.
    destruct (slot_msg s1) as [m|], cmd; [destruct (is_chat m); [discriminate|destruct (bytes_eqb _ _); [|discriminate]]|destruct (is_chat m); [|discriminate]| |]; intros [= <-]; exact H1.
Qed.
Lemma settled_accept o cmd a s : steady s -> accept_line c o cmd a s = accept_line (without c) o cmd a s /\ steady (snd (accept_line c o cmd a s)).
Proof.
  intros H. unfold accept_line. destruct (choose cmd a s) as [e|s1] eqn:C; [auto|]. apply settled_choose in C; [|exact H].
  destruct (settled_decode a s1 C) as [E ST]. rewrite <- E. destruct (decode_into c a s1) as [s2 [e|[[]|e|]]]; cbn [fst] in ST; auto.
  - change (nc_msg (without c)) with (nc_msg c). split; [reflexivity|]. destruct (slot_msg s2) as [m|]; [|exact ST]. destruct (run_msgs _ _) as [[w m'] [| |e]]; apply steady_put; exact ST.
  - change (nc_unmarshal_err (without c)) with (nc_unmarshal_err c). split; [reflexivity|]. destruct (nc_unmarshal_err c) as [f|]; [|exact ST]. destruct (f _ _ _) as [w [[] x]]; exact ST.
Qed.
Lemma settled_line l s : steady s -> process_line c l s = process_line (without c) l s /\ steady (snd (process_line c l s)).
Proof.
  intros H. unfold process_line. destruct (negb _); [auto|]. destruct (contains_byte x00 l); [auto|].
  change (nc_keep_alive (without c)) with (nc_keep_alive c). change (nc_raw (without c)) with (nc_raw c). change (nc_max_cmd (without c)) with (nc_max_cmd c).
  destruct (removelast l) as [|b r].
  - split; [reflexivity|]. destruct (nc_keep_alive c) as [f|]; [|exact H]. destruct (f _) as [w [e|]]; exact H.
  - destruct (beq b "$").
    + destruct (match cut " " r with Some (a, r0) => (a, r0) | None => (r, []) end) as [cmd a]. destruct (run_raw _ _ _ _) as [w [| |e]]; auto.
      assert (H1 : steady (with_w w s)) by exact H. set (s1 := with_w w s) in *. clearbody s1. destruct cmd as [|x t]; [auto|]. destruct (_ <? _)%Z; [auto|]. destruct (negb _); [auto|]. now apply settled_accept.
    + destruct (run_raw _ _ _ _) as [w [| |e]]; auto. now apply settled_accept.
Qed.
Lemma settled_read rl : forall f s (r : reader W zstate), steady s ->
  read_to act f rl c s r = read_to act f rl (without c) s r /\ match read_to act f rl c s r with Some (_, s', _) => steady s' | None => True end.
Proof.
  induction f as [|f IH]; intros s r H; [split; [reflexivity|exact I]|]. cbn [read_to]. destruct (read_line act rl (rs_w s) r) as [[[o w] r']|]; [|auto]. destruct o as [l|o e|]; [|split; [reflexivity|exact H]..].
  assert (H1 : steady (with_w w s)) by exact H. destruct (settled_line l (with_w w s) H1) as [E ST]. rewrite <- E. destruct (process_line c l (with_w w s)) as [[|e|] s']; cbn [snd] in ST; auto.
Qed.
Lemma settled_call f o al (w : W) (r : reader W zstate) :
  read_call act f o al w (mkNreader r (Some d) c) =
  match read_call act f o al w (mkNreader r (Some d) (without c)) with
  | Some (x, s, R) => Some (x, s, mkNreader (nr_line R) (Some d) c)
  | None => None
  end /\ forall x s R, read_call act f o al w (mkNreader r (Some d) (without c)) = Some (x, s, R) -> R = mkNreader (nr_line R) (Some d) (without c).
Proof.
  unfold read_call. cbn [nr_cfg nr_dec nr_line]. destruct (settled_read f f (mkRs w (Some d) (Some d) o al) r) as [E ST]; [split; reflexivity|]. rewrite <- E.
  destruct (read_to act f f c _ r) as [[[x s] r']|]; [|split; [reflexivity|discriminate]]. destruct ST as [_ ST]. rewrite ST. split; [reflexivity|]. intros ? ? ? [= <- <- <-]. reflexivity.
Qed.
Lemma settled_do f k (w : W) (r : reader W zstate) :
  do_call act f k w (mkNreader r (Some d) c) =
  match do_call act f k w (mkNreader r (Some d) (without c)) with
  | Some (o, w2, R) => Some (o, w2, mkNreader (nr_line R) (Some d) c)
  | None => None
  end /\ forall o w2 R, do_call act f k w (mkNreader r (Some d) (without c)) = Some (o, w2, R) -> R = mkNreader (nr_line R) (Some d) (without c).
Proof.
  destruct k as [|m|ms]; cbn [do_call].
  - unfold read_msg. destruct (settled_call f SNil [] w r) as [E F]. rewrite E. destruct (read_call act f SNil [] w (mkNreader r (Some d) (without c))) as [[[x s] R]|]; [|split; [reflexivity|discriminate]].
    destruct x as [|[e|]|]; (split; [reflexivity|]); intros ? ? ? [= <- <- <-]; exact (F _ _ _ eq_refl).
  - unfold read_msg_to. destruct (settled_call f (SOwn m) [] w r) as [E F]. rewrite E. destruct (read_call act f (SOwn m) [] w (mkNreader r (Some d) (without c))) as [[[x s] R]|]; [|split; [reflexivity|discriminate]].
    split; [reflexivity|]. intros ? ? ? [= <- <- <-]; exact (F _ _ _ eq_refl).
  - unfold read_msg_any. destruct ms as [|m0 ms]; [split; [reflexivity|intros ? ? ? [= <- <- <-]; reflexivity]|]. destruct (settled_call f SNil (m0 :: ms) w r) as [E F]. rewrite E.
    destruct (read_call act f SNil (m0 :: ms) w (mkNreader r (Some d) (without c))) as [[[x s] R]|]; [|split; [reflexivity|discriminate]].
    split; [reflexivity|]. intros ? ? ? [= <- <- <-]; exact (F _ _ _ eq_refl).
Qed.
Theorem settled f : forall ks (w : W) (r : reader W zstate),
  do_calls act f ks w (mkNreader r (Some d) c) =
  match do_calls act f ks w (mkNreader r (Some d) (without c)) with
  | Some (os, w2, R) => Some (os, w2, mkNreader (nr_line R) (Some d) c)
  | None => None
  end.
Proof.
  induction ks as [|k ks IH]; intros w r; [reflexivity|]. cbn [do_calls]. destruct (settled_do f k w r) as [E F]. rewrite E.
  destruct (do_call act f k w (mkNreader r (Some d) (without c))) as [[[o w1] R1]|]; [|reflexivity]. rewrite (F _ _ _ eq_refl). cbn [nr_line]. rewrite IH.
  destruct (do_calls act f ks w1 _) as [[[os w2] R2]|]; reflexivity.
Qed.
End Settled.
