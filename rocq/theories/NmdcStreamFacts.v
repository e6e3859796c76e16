(** Lemmas about reading any NMDC stream, and about the callback for unknown encodings. *)
From Verif Require Import Base BaseFacts Num Utf8 Utf8Facts SpecText SpecHash SpecNmdc SpecRead NmdcText NmdcTextFacts HtmlReadFacts.
From Verif Require Import Base32 Tiger NmdcChat NmdcHub NmdcFiles NmdcUser NmdcMessage SpecFrame NmdcDecodeFacts NmdcReuseFacts NmdcRetryFacts NmdcReadMsg.
From Verif Require Import LineReader SpecLine LineReaderStream NmdcReader SpecReader NmdcReaderFacts NmdcReaderTypes NmdcReaderCalls SpecStream NmdcCrashFacts NmdcUnknownFacts.
From Coq Require Import Lia.

(** ** Repairing *)
Lemma utf8_of_encode r : utf8_of r = encode_scalar r.
Proof. reflexivity. Qed.
Lemma to_valid_fuel_repaired f : forall s, length s <= f -> repaired s (to_valid_fuel f s).
Proof.
  induction f as [|f IH]; intros s L; [destruct s; [constructor|cbn in L; lia]|]. cbn [to_valid_fuel]. destruct s as [|a s]; [constructor|].
  unfold decode_rune. destruct (decode1 (a :: s)) as [[r n]|] eqn:D.
  - pose proof (decode1_sound _ _ _ D) as (R & E & K). unfold encode_rune. rewrite R. rewrite E at 1. apply rp_char; [now apply scalar_iff|].
    apply IH. rewrite skipn_length. pose proof (encode_scalar_not_nil r) as N. assert (0 < n) by (destruct (encode_scalar r); [congruence|cbn in K; lia]). cbn [length] in *. lia.
  - change (skipn 1 (a :: s)) with s. apply rp_bad; [|apply IH; cbn in L; lia].
    intros r s' R E. apply scalar_iff in R. rewrite E, utf8_of_encode, decode1_encode in D by exact R. discriminate.
Qed.
Lemma to_valid_repaired s : repaired s (to_valid s).
Proof. now apply to_valid_fuel_repaired. Qed.

(** ** Hashes keep their size *)
Lemma new_tth_sized s : length (fst (new_tth s)) = 24.
Proof. unfold new_tth. pose proof (unmarshal_keeps (repeat x00 hash_size) s eq_refl) as H. destruct (hash_unmarshal_base32 _ s). exact H. Qed.
(** The hash of a search or of a result has its size. *)
Definition tth_sized (h : option bytes) : Prop := match h with Some h => length h = 24 | None => True end.
Lemma search_sized dec m d : tth_sized (se_tth m) -> tth_sized (se_tth (fst (search_unmarshal dec m d))).
Proof.
  assert (W : forall m f, tth_sized (se_tth m) -> tth_sized (se_tth (fst (search_what dec m f)))).
  { intros m0 f H. unfold search_what. destruct (_ =? _)%N.
    - destruct (has_prefix _ f); [|exact H]. match goal with |- context [new_tth ?h] => pose proof (new_tth_sized h) as L; destruct (new_tth h) end. exact L.
    - destruct (string_unmarshal dec f); exact H. }
  assert (T : forall m d, tth_sized (se_tth m) -> tth_sized (se_tth (fst (search_string dec m d)))).
  { intros m0 d0 H. unfold search_string. destruct (splitn_byte 5 "?" d0) as [|f0 [|f1 [|f2 [|f3 [|f4 [|? ?]]]]]]; try exact H.
    destruct (unmarshal_flag f0); try exact H. destruct (unmarshal_flag f1); try exact H.
    unfold search_size. destruct f2 as [|c f2]; [|destruct (beq c "-"); [destruct (parse_uint_trim f2); cbn [bind]; try exact H|destruct (parse_uint_trim (c :: f2)); cbn [bind]; try exact H]].
    all: destruct (parse_uint_trim f3); try exact H; apply W; exact H. }
  intros H. unfold search_unmarshal. destruct (cut " " d) as [[f0 f1]|]; [|exact H]. destruct (has_prefix _ f0); [|now apply T].
  destruct (name_unmarshal dec _); try exact H. now apply T.
Qed.
Lemma sr_sized dec m d : tth_sized (sr_tth m) -> tth_sized (sr_tth (fst (sr_unmarshal dec m d))).
Proof.
  assert (T1 : forall m d, tth_sized (sr_tth m) -> tth_sized (sr_tth (fst (sr_tail dec m d)))).
  { intros m0 d0 H. unfold sr_tail. destruct (cut ")" d0) as [[ad r]|]; [|exact H]. destruct r as [|c [|x r]]; try exact H. destruct (beq c sr_sep); [|exact H]. destruct (name_unmarshal dec _); exact H. }
  assert (T2 : forall m d, tth_sized (sr_tth m) -> tth_sized (sr_tth (fst (sr_hub dec m d)))).
  { intros m0 d0 H. unfold sr_hub. destruct (has_prefix _ d0).
    - destruct (has_prefix _ _); [|exact H]. match goal with |- context [new_tth ?h] => pose proof (new_tth_sized h) as L; destruct (new_tth h) as [t r] end. cbn [fst] in L.
      destruct r; [apply T1; exact L|exact L|exact L].
    - destruct (cut_seq _ d0) as [[h r]|]; [|exact H]. destruct (string_unmarshal dec h); try exact H. apply T1, H. }
  assert (T3 : forall m p s d, tth_sized (sr_tth m) -> tth_sized (sr_tth (fst (sr_slots dec m p s d)))).
  { intros m0 p s d0 H. unfold sr_slots. destruct (string_unmarshal dec p); try exact H. destruct (cut "/" s) as [[f t]|]; [|exact H].
    destruct (atoi_trim f); try exact H. destruct (atoi_trim t); try exact H. apply T2, H. }
  intros H. unfold sr_unmarshal. destruct (cut " " d) as [[n d1]|]; [|exact H]. destruct (name_unmarshal dec n); try exact H.
  destruct (cut sr_sep d1) as [[mb d2]|]; [|exact H]. destruct (sr_scan (rev mb) false []) as [[|] [[p s]|]]; [apply T3, H| | |].
  all: destruct (cut sr_sep d2) as [[ss d3]|]; [|exact H]; destruct (cut " " ss) as [[sz sl]|]; [|exact H]; destruct (parse_uint_trim sz); try exact H; apply T3, H.
Qed.
Lemma sized_after dec m d : sized m -> sized (fst (msg_unmarshal dec m d)).
Proof.
  intros H. destruct m; cbn [msg_unmarshal lift]; try exact I.
  - pose proof (search_sized dec m d H) as K. destruct (search_unmarshal dec m d). exact K.
  - pose proof (sr_sized dec m d H) as K. destruct (sr_unmarshal dec m d). exact K.
  - unfold sa_unmarshal. destruct (skipn base32_size d) as [|c r]; [exact H|]. destruct (beq c " "); [|exact H].
    pose proof (unmarshal_keeps (sa_tth m) (firstn base32_size d) H) as L. destruct (hash_unmarshal_base32 _ _) as [[]]; exact L.
  - unfold sp_unmarshal. destruct (skipn base32_size d) as [|c r]; [exact H|]. destruct (beq c " "); [|exact H].
    pose proof (unmarshal_keeps (sp_tth m) (firstn base32_size d) H) as L. destruct (hash_unmarshal_base32 _ _) as [[] h]; try exact L. destruct (name_unmarshal dec r); exact L.
Qed.
Lemma kind_after dec m d : same_kind (fst (msg_unmarshal dec m d)) m.
Proof. destruct m; cbn [msg_unmarshal lift fst]; try (destruct (_ dec _ d)); try exact I; try reflexivity; try (cbn; reflexivity). Qed.

(** ** Lines *)
Lemma line_for_unique limit l t a t' a' : line_for limit l t a -> line_for limit l t' a' -> t' = t /\ a' = a.
Proof.
  intros (b & c & -> & _ & P & C) (b' & c' & E & _ & P' & C'). apply app_inv_tail in E. subst b'.
  assert (K : c' = c /\ a' = a).
  { destruct P as [b H1 H2|n H|n p H]; inversion P' as [b' H1' H2' E1|n' H' E1|n' p' H' E1]; subst.
    - auto.
    - now contradiction (H2 n').
    - now contradiction (H2 (n' ++ " "%byte :: a')).
    - now contradiction (H2' n).
    - auto.
    - exfalso. apply H. apply in_app_iff. right. now left.
    - now contradiction (H2' (n ++ " "%byte :: p)).
    - exfalso. apply H'. apply in_app_iff. right. now left.
    - assert (J : cut " " (n ++ " "%byte :: p) = cut " " (n' ++ " "%byte :: a')) by congruence. rewrite !cut_app in J by assumption. injection J as -> ->. auto. }
  destruct K as [-> ->]. split; [|reflexivity]. destruct c as [n|]; [destruct C as [<- _], C' as [<- _]; reflexivity|congruence].
Qed.
Lemma fresh_search t s : new_message t = MSearch s -> t = B "Search".
Proof. intros H. pose proof (new_message_type t) as T. rewrite H in T. now symmetry. Qed.
Lemma means_decoded dec limit l t a m r : line_for limit l t a -> msg_unmarshal dec (new_message t) a = (m, r) ->
  line_means dec limit l (match r with Ok _ => Ok (Some m) | Err e => Err e | Panic => Panic end).
Proof.
  intros L D. destruct r as [[]|e|].
  - apply decoded_reads in D as [T R]. now apply (lm_message _ _ _ t a).
  - apply lm_error.
    + intros t' a' m' L' T R. change (SpecCommand.command m') with (msg_type m') in T. destruct (line_for_unique _ _ _ _ _ _ L L') as [-> ->]. apply reads_decoded in R as (m2 & R & _). rewrite T, D in R. discriminate.
    + intros a' L' C. destruct (line_for_unique _ _ _ _ _ _ L L') as [T ->]. subst t.
      assert (P : snd (msg_unmarshal dec (new_message (B "Search")) a) = Panic) by (apply msg_panics; [apply new_message_cleared|]; split; [now eexists|exact C]).
      rewrite D in P. discriminate.
    + intros text. split.
      * intros ->. exists t, a. split; [exact L|]. apply unknown_for_iff. eauto.
      * intros (t' & a' & L' & U). destruct (line_for_unique _ _ _ _ _ _ L L') as [-> ->]. apply unknown_for_iff in U as [m' U]. congruence.
  - assert (P : snd (msg_unmarshal dec (new_message t) a) = Panic) by now rewrite D.
    apply msg_panics in P as [[s E] C]; [|apply new_message_cleared]. apply fresh_search in E. subst t. now apply (lm_crash _ _ _ a).
Qed.
Lemma unread dec t a e : snd (msg_unmarshal dec (new_message t) a) = Err e -> forall m, msg_type m = t -> ~ SpecRead.reads dec a m.
Proof. intros H m <- R. apply reads_decoded in R as (m' & R & _). rewrite R in H. discriminate. Qed.
Section Session.
Context {W zstate : Type} (act : zstate -> zaction zstate).
Variables (c : ncfg W) (g : W -> W).
Hypothesis Hraw : nc_raw c = [].
Hypothesis Hmsg : nc_msg c = [].
Hypothesis Herr : nc_unmarshal_err c = None.
Hypothesis Hka : match nc_keep_alive c with None => forall w, g w = w | Some f => forall w, f w = (g w, None) end.

Lemma process_line_result l w dec : is_line "|"%byte l -> l <> B "|" ->
  exists x s, process_line c l (mkRs w dec dec SNil []) = (x, s) /\ x <> LSkip /\
    line_result (nc_unknown c) (nc_max_cmd c) w dec l (result x s) (rs_w s) (rs_set s).
Proof.
  intros (body & -> & _) N. change [ "|"%byte ] with (B "|") in *. assert (N' : body <> []) by (intros ->; contradiction). clear N.
  set (s0 := mkRs w dec dec SNil []).
  assert (BAD : forall e, (forall t a, ~ line_for (nc_max_cmd c) (body ++ B "|") t a) -> (forall t, e <> EUnknownEnc t) ->
    line_result (nc_unknown c) (nc_max_cmd c) w dec (body ++ B "|") (result (LReturn (Some e)) s0) (rs_w s0) (rs_set s0)).
  { intros e H K. cbn. apply ll_plain; [|intros _ t [= E]; now apply (K t)]. apply lm_error; [intros t a m L; now contradiction (H _ _ L)|intros a L; now contradiction (H _ _ L)|]. intros text. split; [intros ->; now contradiction (K text)|]. intros (t & a & L & _). now contradiction (H _ _ L). }
  destruct (in_dec (fun x y => match beq_spec x y with ReflectT _ p => left p | ReflectF _ p => right p end) x00 body) as [Z|Z].
  { exists (LReturn (Some err_null)), s0. split; [now apply process_nul|]. split; [discriminate|]. apply BAD; [|discriminate].
    intros t a (b & cm & E & K & _). apply app_inv_tail in E. now subst b. }
  destruct (parsed_exists body N') as (cmd & a & P). rewrite (process_parsed c body cmd a s0 Z P), Hraw. cbn [run_raw].
  destruct (name_error c cmd) as [e|] eqn:NE.
  { exists (LReturn (Some e)), s0. split; [reflexivity|]. split; [discriminate|]. apply BAD.
    - intros t' a' (b & cm & E & _ & P' & C'). apply app_inv_tail in E. subst b.
      assert (K : cm = cmd). { destruct P as [b H1 H2|n H|n p H]; inversion P' as [b' H1' H2' E1|n' H' E1|n' p' H' E1]; subst; auto.
        - now contradiction (H2 n').
        - now contradiction (H2 (n' ++ " "%byte :: a')).
        - now contradiction (H2' n).
        - exfalso. apply H. apply in_app_iff. right. now left.
        - now contradiction (H2' (n ++ " "%byte :: p)).
        - exfalso. apply H'. apply in_app_iff. right. now left.
        - assert (J : cut " " (n ++ " "%byte :: p) = cut " " (n' ++ " "%byte :: a')) by congruence. rewrite !cut_app in J by assumption. now injection J as -> ->. }
      subst cm. assert (X : name_error c cmd = None) by (apply name_error_none; destruct cmd; tauto). congruence.
    - intros t ->. unfold name_error in NE. destruct cmd as [[|b t']|]; try discriminate. destruct (_ <? _)%Z; [discriminate|]. destruct (is_ascii_name _); discriminate. }
  rewrite with_w_same. set (t := match cmd with Some t => t | None => [] end).
  assert (L : line_for (nc_max_cmd c) (body ++ B "|") t a).
  { exists body, cmd. split; [reflexivity|]. split; [exact Z|]. split; [exact P|]. apply name_error_none in NE. destruct cmd; [split; [reflexivity|exact NE]|reflexivity]. }
  assert (CH : choose cmd a s0 = inr (mkRs w dec dec (SOwn (new_message t)) [])) by (unfold choose; destruct cmd; reflexivity).
  unfold accept_line. rewrite CH. unfold decode_into. cbn [slot_msg rs_slot rs_dec]. destruct (msg_unmarshal dec (new_message t) a) as [m1 r1] eqn:D.
  unfold put_msg, with_slot. cbn [rs_slot rs_w rs_dec rs_set rs_allowed]. cbv zeta.
  (* decoded, or refused without asking *)
  assert (PLAIN : (forall g0 text, nc_unknown c = Some g0 -> r1 <> Err (EUnknownEnc text)) ->
    line_result (nc_unknown c) (nc_max_cmd c) w dec (body ++ B "|") (match r1 with Ok _ => Ok (Some m1) | Err e => Err e | Panic => Panic end) w dec).
  { intros H. apply ll_plain; [now apply (means_decoded _ _ _ t a)|]. intros K text E. destruct (nc_unknown c) as [g0|]; [|contradiction]. destruct r1; try discriminate. injection E as ->. now apply (H g0 text). }
  assert (FIN : forall (mm : msg) (r : res unit) w1 d2 st, exists x s,
    match r with
    | Ok _ => match run_msgs (nc_msg c) (w1, mm) with
              | ((w2, m'), HPass) => (LReturn None, with_w w2 (put_msg m' (mkRs w1 d2 st (SOwn mm) []))) | ((w2, m'), HDrop) => (LSkip, with_w w2 (put_msg m' (mkRs w1 d2 st (SOwn mm) [])))
              | ((w2, m'), HErr e) => (LReturn (Some e), with_w w2 (put_msg m' (mkRs w1 d2 st (SOwn mm) []))) end
    | Err e => match nc_unmarshal_err c with None => (LReturn (Some e), mkRs w1 d2 st (SOwn mm) []) | Some f => match f w1 body e with (w2, (false, _)) => (LSkip, with_w w2 (mkRs w1 d2 st (SOwn mm) [])) | (w2, (true, o)) => (LReturn o, with_w w2 (mkRs w1 d2 st (SOwn mm) [])) end end
    | Panic => (LCrash, mkRs w1 d2 st (SOwn mm) [])
    end = (x, s) /\ x <> LSkip /\ result x s = match r with Ok _ => Ok (Some mm) | Err e => Err e | Panic => Panic end /\ rs_w s = w1 /\ rs_set s = st).
  { intros mm r w1 d2 st. destruct r as [[]|e|]; rewrite ?Hmsg, ?Herr; cbn [run_msgs]; eexists; eexists; (split; [reflexivity|]); repeat split; discriminate. }
  destruct (nc_unknown c) as [f|] eqn:U.
  2: { destruct (FIN m1 r1 w dec dec) as (x & s & E & X & R & E1 & E2). exists x, s. split; [|split; [exact X|rewrite R, E1, E2; apply PLAIN; discriminate]].
       rewrite <- E. destruct r1 as [[]|e|]; reflexivity. }
  assert (ASK : (exists text, r1 = Err (EUnknownEnc text)) \/ (forall text, r1 <> Err (EUnknownEnc text))).
  { destruct r1 as [|[]|]; try (right; discriminate). left. eauto. }
  destruct ASK as [[text ->]|NK].
  2: { destruct (FIN m1 r1 w dec dec) as (x & s & E & X & R & E1 & E2). exists x, s. split; [|split; [exact X|rewrite R, E1, E2; apply PLAIN; auto]].
       rewrite <- E. destruct r1 as [[]|[]|]; try reflexivity. exfalso. now eapply NK. }
  assert (NR : forall m, msg_type m = t -> ~ SpecRead.reads dec a m) by (apply (unread dec t a (EUnknownEnc text)); now rewrite D).
  assert (OT : unknown_for dec t a text) by (apply unknown_for_iff; eauto).
  destruct (f w text) as [w1 [[d|]|e]] eqn:F.
  - (* a decoder *)
    pose proof (again dec (Some d) (new_message t) a text (proj2 (new_message_cleared t))) as AG. rewrite D in AG. cbn [fst snd] in AG. specialize (AG eq_refl).
    destruct (msg_unmarshal (Some d) m1 a) as [m2 r2] eqn:D2. destruct (msg_unmarshal (Some d) (new_message t) a) as [m3 r3] eqn:D3. destruct AG as [AG1 AG2]. cbn in AG1, AG2. subst r3.
    destruct (FIN m2 r2 w1 (Some d) (Some d)) as (x & s & E & X & R & E1 & E2). exists x, s. split; [rewrite <- E; destruct r2 as [[]|e|]; reflexivity|]. split; [exact X|]. rewrite R, E1, E2.
    apply (ll_decoder _ _ _ _ _ f t a text); auto. pose proof (means_decoded _ _ _ _ _ _ _ L D3) as LM. destruct r2 as [[]|e|]; try exact LM. now rewrite (AG2 eq_refl).
  - (* no decoder *)
    destruct (msg_unmarshal None m1 (to_valid a)) as [m2 r2] eqn:D2. destruct (FIN m2 r2 w1 None dec) as (x & s & E & X & R & E1 & E2). exists x, s. split; [rewrite <- E; destruct r2 as [[]|e|]; reflexivity|]. split; [exact X|]. rewrite R, E1, E2.
    apply (ll_repaired _ _ _ _ _ f t a text w1 (to_valid a)); auto; [apply to_valid_repaired|].
    pose proof (kind_after dec (new_message t) a) as K1. pose proof (sized_after dec (new_message t) a (proj2 (new_message_cleared t))) as S1. rewrite D in K1, S1. cbn [fst] in K1, S1.
    pose proof (acceptance_independent None m1 (new_message t) (to_valid a) K1 S1 (proj2 (new_message_cleared t))) as AI. rewrite D2 in AI. cbn [snd] in AI.
    destruct (msg_unmarshal None (new_message t) (to_valid a)) as [m3 r3] eqn:D3. cbn [snd] in AI. subst r3. destruct r2 as [[]|e|].
    + pose proof (decoded_reads _ _ _ _ D3) as [T3 R3]. pose proof (kind_after None m1 (to_valid a)) as K2. rewrite D2 in K2. cbn [fst] in K2.
      apply (rm_message t _ m2 m3); auto.
      * change (SpecCommand.command m2) with (msg_type m2). rewrite <- (new_message_type t). clear - K1 K2. destruct m2, m1; cbn [same_kind] in K2; try contradiction; destruct (new_message t); cbn [same_kind] in K1; try contradiction; cbn [msg_type]; congruence.
      * intros SA. assert (C1 : cleared m1) by (clear - K2 SA; destruct m2, m1; cbn [same_kind] in K2; try contradiction; cbn [sets_all] in SA; try contradiction; exact I).
        pose proof (reuse_cleared None m1 (new_message t) (to_valid a) K1 S1 (proj2 (new_message_cleared t)) C1 (proj1 (new_message_cleared t))) as [_ RC]. rewrite D2, D3 in RC. now apply RC.
    + apply rm_error; [apply (unread None t (to_valid a) e); now rewrite D3| |intros text'; rewrite unknown_for_iff, D3; split; [intros ->; eauto|intros [m' [= _ ->]]; reflexivity]]. intros -> C.
      assert (PP : snd (msg_unmarshal None (new_message (B "Search")) (to_valid a)) = Panic) by (apply msg_panics; [apply new_message_cleared|]; split; [now eexists|exact C]).
      rewrite D3 in PP. discriminate.
    + assert (PP : snd (msg_unmarshal None (new_message t) (to_valid a)) = Panic) by now rewrite D3.
      apply msg_panics in PP as [[s' E'] C]; [|apply new_message_cleared]. apply fresh_search in E'. apply rm_crash; [exact E'|exact C].
  - (* refused *)
    eexists. eexists. split; [reflexivity|]. split; [discriminate|]. cbn. now apply (ll_refused _ _ _ _ _ f t a text).
Qed.

(** The first call over some lines. *)
Lemma through_session : forall fs w dec, Forall (is_line "|"%byte) fs ->
  (exists w', through c fs (mkRs w dec dec SNil []) = (LReturn (Some EEOF), mkRs w' dec dec SNil [], []) /\
     session (nc_unknown c) g (nc_max_cmd c) w dec fs [] w' dec) \/
  (exists fs2 x s, through c fs (mkRs w dec dec SNil []) = (x, s, fs2) /\ Forall (is_line "|"%byte) fs2 /\ length fs2 < length fs /\
     forall os w2 d2, session (nc_unknown c) g (nc_max_cmd c) (rs_w s) (rs_set s) fs2 os w2 d2 ->
       session (nc_unknown c) g (nc_max_cmd c) w dec fs (result x s :: os) w2 d2).
Proof.
  induction fs as [|l fs IH]; intros w dec H.
  - left. exists w. split; [reflexivity|constructor].
  - inversion H as [|? ? H1 H2]; subst. cbn [through]. destruct (list_eq_dec (fun x y => match beq_spec x y with ReflectT _ p => left p | ReflectF _ p => right p end) l (B "|")) as [->|N].
    + rewrite (process_keep c g Hka). cbn [rs_w]. unfold with_w. cbn [rs_dec rs_set rs_slot rs_allowed].
      destruct (IH (g w) dec H2) as [(w' & T & S1)|(fs2 & x & s & T & L & B & S1)].
      * left. exists w'. split; [exact T|]. now apply ss_keep.
      * right. exists fs2, x, s. split; [exact T|]. split; [exact L|]. split; [cbn; lia|]. intros os w2 d2 S2. apply ss_keep. now apply S1.
    + right. destruct (process_line_result l w dec H1 N) as (x & s & P & X & R). rewrite P. exists fs, x, s.
      split; [destruct x; [contradiction|reflexivity..]|]. split; [exact H2|]. split; [cbn; lia|]. intros os w2 d2 S2. now apply (ss_line _ _ _ _ _ _ _ _ (rs_w s) (rs_set s)).
Qed.

Theorem session_reads : forall fs w dec (r : reader W zstate), Forall (is_line "|"%byte) fs -> supplies act r fs ->
  exists os w2 dec2, session (nc_unknown c) g (nc_max_cmd c) w dec fs os w2 dec2 /\
    forall n, exists w3 R, eventually (fun f => read_msgs act f n w (mkNreader r dec c) = Some (firstn n (os ++ repeat (Err EEOF) n), w3, R)) /\
      (length os < n -> w3 = w2 /\ nr_dec R = dec2).
Proof.
  intros fs. remember (length fs) as k eqn:E. assert (LE : length fs <= k) by lia. clear E. revert fs LE. induction k as [|k IH]; intros fs LE w dec r HL HS.
  - destruct fs as [|? ?]; [|cbn in LE; lia]. exists [], w, dec. split; [constructor|]. intros n. destruct (supplies_eof act c n w r dec HS) as (r' & K).
    exists w, (mkNreader r' dec c). split; [|auto]. cbn [app]. rewrite firstn_repeat by lia. exact K.
  - destruct (through_session fs w dec HL) as [(w' & T & S1)|(fs2 & x & s & T & L & B & S1)].
    + destruct (supplies_msg act fs w (mkNreader r dec c) _ _ _ HS T) as (r1 & K1 & K2). cbn [rs_w rs_set nr_cfg result] in K2.
      exists [], w', dec. split; [exact S1|]. intros [|n].
      * exists w, (mkNreader r dec c). split; [exists 0; reflexivity|cbn; lia].
      * destruct (supplies_eof act c n w' r1 dec K1) as (r' & K3). exists w', (mkNreader r' dec c). split; [|auto]. cbn [app]. rewrite firstn_repeat by lia.
        exact (read_msgs_cons act n _ _ _ _ _ _ _ _ K2 K3).
    + destruct (supplies_msg act fs w (mkNreader r dec c) _ _ _ HS T) as (r1 & K1 & K2). cbn [nr_cfg] in K2.
      destruct (IH fs2 ltac:(lia) (rs_w s) (rs_set s) r1 L K1) as (os & w2 & dec2 & S2 & RD).
      exists (result x s :: os), w2, dec2. split; [now apply S1|]. intros [|n].
      * exists w, (mkNreader r dec c). split; [exists 0; reflexivity|cbn; lia].
      * destruct (RD n) as (w3 & R & E3 & F3). exists w3, R. split; [|cbn [length]; intros; apply F3; lia]. cbn [app firstn].
        assert (X : firstn n (os ++ repeat (Err EEOF) (S n)) = firstn n (os ++ repeat (Err EEOF) n)).
        { rewrite !firstn_app. f_equal. rewrite !firstn_repeat by lia. reflexivity. }
        rewrite X. exact (read_msgs_cons act n _ _ _ _ _ _ _ _ K2 E3).
Qed.
End Session.

(** Without the callback, every line has its own meaning. *)
Lemma session_plain {W} k limit (w : W) dec ls os w2 dec2 : session None k limit w dec ls os w2 dec2 ->
  dec2 = dec /\ Forall2 (line_means dec limit) (filter (fun l => negb (bytes_eqb l (B "|"))) ls) os /\
  w2 = Nat.iter (length (filter (fun l => bytes_eqb l (B "|")) ls)) k w.
Proof.
  induction 1 as [w dec|w dec ls os w2 dec2 H IH|w dec l ls o w1 dec1 os w2 dec2 N H S IH].
  - split; [reflexivity|split; [constructor|reflexivity]].
  - destruct IH as (-> & F & ->). split; [reflexivity|]. cbn [filter]. change (bytes_eqb (B "|") (B "|")) with true. cbn [negb length]. split; [exact F|].
    generalize (length (filter (fun l => bytes_eqb l (B "|")) ls)). intros n. induction n as [|n IHn]; [reflexivity|]. cbn in *. now f_equal.
  - destruct H as [x H _| | |]; try discriminate. destruct IH as (-> & F & ->). split; [reflexivity|]. cbn [filter].
    rewrite (proj2 (bytes_eqb_false _ _) N). split; [now constructor|reflexivity].
Qed.

(** The meaning of a line is unique. *)
Lemma means_unique dec limit l x y : line_means dec limit l x -> line_means dec limit l y ->
  match x, y with Ok (Some m), Ok (Some m') => msg_alike m m' | Err _, Err _ | Panic, Panic => True | _, _ => False end.
Proof.
  assert (NC : forall a m, msg_type m = B "Search" -> SpecRead.reads dec a m -> ~ search_crash dec a).
  { intros a m T R C. apply reads_decoded in R as (m2 & R & _). rewrite T in R.
    assert (P : snd (msg_unmarshal dec (new_message (B "Search")) a) = Panic) by (apply msg_panics; [apply new_message_cleared|]; split; [now eexists|exact C]).
    rewrite R in P. discriminate. }
  intros H1 H2. destruct H1 as [t a m L T R|a L C|e N NP], H2 as [t' a' m' L' T' R'|a' L' C'|e' N' NP']; try exact I.
  - destruct (line_for_unique _ _ _ _ _ _ L L') as [-> ->]. apply (reads_unique dec a); auto. change (msg_type m = msg_type m'). change (SpecCommand.command m) with (msg_type m) in *. change (SpecCommand.command m') with (msg_type m') in *. congruence.
  - destruct (line_for_unique _ _ _ _ _ _ L L') as [K ->]. subst t. symmetry in K. now apply (NC a m).
  - now apply (N' t a m).
  - destruct (line_for_unique _ _ _ _ _ _ L L') as [-> ->]. now apply (NC a m').
  - now apply (NP' a).
  - now apply (N t' a' m').
  - now apply (NP a').
Qed.
