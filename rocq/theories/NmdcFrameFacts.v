(** Framing of NMDC messages: no stray delimiters, and no crashes. *)
From Verif Require Import Base BaseFacts Num NumFacts Utf8 NmdcText NmdcTextFacts SpecText SpecHash SpecNmdc NmdcMsgFacts NmdcChat NmdcHub NmdcFiles NmdcUser NmdcMessage
  Base32 Base32Facts Tiger TigerFacts NmdcChatFacts NmdcHubFacts NmdcFilesFacts NmdcUserFacts SpecFrame.
From Coq Require Import Lia.

Lemma ok_inj {A} (a b : A) : Ok a = Ok b -> a = b. Proof. congruence. Qed.
Ltac binds := repeat match goal with
  | H : bind _ _ = Ok _ |- _ => apply bind_ok in H; destruct H as (? & ? & H)
  | H : Ok _ = Ok _ |- _ => apply ok_inj in H; try subst
  | H : Err _ = Ok _ |- _ => discriminate H
  | H : Panic = Ok _ |- _ => discriminate H
  end.

Section Reserved.
Variable c : byte.
Hypothesis Hc : c = "|"%byte \/ c = x00.

Lemma str_no enc s e : string_marshal enc s = Ok e -> ~ In c e.
Proof. intros H. apply string_marshal_safe in H. destruct Hc as [->| ->]; tauto. Qed.
Lemma nam_no enc s e : name_marshal enc s = Ok e -> ~ In c e.
Proof. intros H. apply name_marshal_safe in H. destruct Hc as [->| ->]; tauto. Qed.
Lemma uint_no' n : ~ In c (format_uint n).
Proof. apply format_uint_notin. destruct Hc as [->| ->]; reflexivity. Qed.
Lemma int_no' z : ~ In c (format_int z).
Proof. apply format_int_notin; destruct Hc as [->| ->]; reflexivity || discriminate. Qed.
Lemma lit_no (l : bytes) : contains_byte "|" l = false -> contains_byte x00 l = false -> ~ In c l.
Proof. intros H1 H2 K. apply contains_byte_spec in K. destruct Hc as [->| ->]; congruence. Qed.
Lemma hash_no n h b : length h = 24 -> hash_marshal_base32 (repeat x00 (39 + n)) h = Some b -> n <= 1 -> ~ In c (firstn 39 b).
Proof.
  intros L H Hn. assert (E : firstn 39 b = hash_base32 h).
  { pose proof (hash_roundtrips h h L L) as (_ & _ & _ & _ & R & _). destruct n as [|[|n]]; [| |lia].
    - change (39 + 0) with 39 in H. rewrite R in H. injection H as <-. apply firstn_all2. pose proof (hash_text h L) as [Hl _]. lia.
    - pose proof (encode_40 h L) as E. unfold hash_marshal_base32 in *. rewrite R in E. change (39 + 1) with 40 in H. rewrite H in E. cbn [option_map] in E. congruence. }
  rewrite E. assert (S : hash_spelled h (hash_base32 h)) by (apply hash_spelled_iff; auto).
  apply (spelled_no _ _ _ S); destruct Hc as [->| ->]; reflexivity.
Qed.
Lemma tth_no h b : length h = 24 -> marshal_tth h = Ok b -> ~ In c b.
Proof.
  intros L H. rewrite (tth_marshal h (hash_base32 h)) in H by (apply hash_spelled_iff; auto). apply ok_inj in H. subst b.
  apply in_app_not; [apply lit_no; reflexivity|]. assert (S : hash_spelled h (hash_base32 h)) by (apply hash_spelled_iff; auto).
  apply (spelled_no _ _ _ S); destruct Hc as [->| ->]; reflexivity.
Qed.
Lemma tths_no h b : length h = 24 -> marshal_tth_space h = Ok b -> ~ In c b.
Proof.
  intros L H. assert (S : hash_spelled h (hash_base32 h)) by (apply hash_spelled_iff; auto). rewrite (tth_space h _ S) in H. apply ok_inj in H. subst b.
  apply in_app_not; [|apply lit_no; reflexivity]. 
  apply (spelled_no _ _ _ S); destruct Hc as [->| ->]; reflexivity.
Qed.
Lemma path_no enc l : forall first b, marshal_path enc first l = Ok b -> ~ In c b.
Proof.
  induction l as [|s l IH]; intros first b H; cbn [marshal_path] in H; binds; [not_in|].
  apply in_app_not; [destruct first; apply lit_no; reflexivity|]. apply in_app_not; [eapply str_no; eassumption|eapply IH; eassumption].
Qed.
Lemma join_no (l : list bytes) sep : ~ In c sep -> Forall (fun x => ~ In c x) l -> ~ In c (join sep l).
Proof.
  intros Hs F K. apply join_in in K. destruct K as [K|(x & Hx & K)]; [contradiction|]. rewrite Forall_forall in F. exact (F x Hx K).
Qed.
Lemma names_no enc l : forall b, names_loop enc l = Ok b -> ~ In c b.
Proof.
  induction l as [|s l IH]; intros b H; cbn [names_loop] in H; binds; [not_in|].
  apply in_app_not; [eapply nam_no; eassumption|]. apply in_app_not; [apply lit_no; reflexivity|eapply IH; eassumption].
Qed.
Lemma userip_no enc l : forall b, userip_marshal enc l = Ok b -> Forall (fun x => ~ In c x) (map snd l) -> ~ In c b.
Proof.
  induction l as [|[n ip] l IH]; intros b H F; cbn [userip_marshal] in H; binds; [not_in|]. inversion F; subst.
  apply in_app_not; [eapply nam_no; eassumption|]. apply in_app_not; [apply lit_no; reflexivity|]. apply in_app_not; [assumption|].
  apply in_app_not; [apply lit_no; reflexivity|eapply IH; eassumption].
Qed.
Lemma replace_no x y s : c <> y -> ~ In c s -> ~ In c (replace_byte x y s).
Proof. intros Hy H K. apply in_map_iff in K. destruct K as (z & E & Hz). destruct (beq z x); congruence. Qed.
Lemma opt_no (b : bool) l : ~ In c l -> ~ In c (if b then l else []).
Proof. destruct b; auto. Qed.
Lemma extra_text_no l : Forall (fun x => ~ In c x) (map fst l ++ map snd l) -> ~ In c (extra_text l).
Proof.
  rewrite Forall_app. intros [F1 F2] K. apply in_flat_map in K. destruct K as (kv & Hk & K). rewrite Forall_forall in *.
  revert K. apply in_app_not; [apply lit_no; reflexivity|]. apply in_app_not; [apply F1, in_map, Hk|]. apply in_app_not; [apply lit_no; reflexivity|apply F2, in_map, Hk].
Qed.

Ltac piece := first [eapply str_no; eassumption | eapply nam_no; eassumption | apply uint_no' | apply int_no' | eapply tth_no; eassumption | eapply tths_no; eassumption
  | eapply path_no; eassumption | eapply names_no; eassumption | assumption | apply lit_no; reflexivity].
Ltac pieces := repeat (apply in_app_not; [try piece|]); try piece.

Lemma payload_no enc m p : sized m -> Forall (fun f => ~ In c f) (raw_fields m) -> msg_marshal enc m = Ok p -> ~ In c p.
Proof.
  intros S F H. destruct m; cbn [msg_marshal raw_fields sized] in *.
  - piece.
  - piece.
  - binds. not_in.
  - binds. inversion F; assumption.
  - destruct e; cbn [err_marshal] in H; binds; [piece|not_in].
  - unfold names_marshal in H. destruct l; binds; piece.
  - unfold chat_marshal in H. destruct (ch_name m); binds; cbn [app]; pieces.
  - unfold pm_marshal in H. binds. pieces.
  - unfold mcto_marshal in H. binds. pieces.
  - unfold ucmd_marshal in H. destruct (uc_path m); binds; destruct (uc_command m); binds; rewrite <- ?app_assoc; pieces.
  - unfold ctm_marshal in H. destruct (ct_targ m); binds. inversion F; subst.
    assert (N : ~ In c (if ct_secure m then B "S" else [])) by (apply opt_no, lit_no; reflexivity).
    destruct (ct_kind m =? 0)%Z; [|destruct (ct_kind m =? 1)%Z; [|destruct (ct_kind m =? 2)%Z]]; binds;
      destruct (ct_kind m =? 1)%Z; destruct (ct_src m); binds; rewrite <- ?app_assoc; pieces.
  - unfold rctm_marshal in H. binds. pieces.
  - unfold adcget_marshal in H. binds.
    assert (N : ~ In c (if ag_compressed m then B " ZL1" else [])) by (apply opt_no, lit_no; reflexivity).
    destruct (ag_downloaded m); rewrite <- ?app_assoc; pieces.
  - unfold adcsnd_marshal in H. binds.
    assert (N : ~ In c (if as_compressed m then B " ZL1" else [])) by (apply opt_no, lit_no; reflexivity). pieces.
  - unfold direction_marshal in H. binds. destruct (di_upload m); pieces.
  - binds. apply join_no; [apply lit_no; reflexivity|exact F].
  - binds. unfold lock_marshal, ext_lock_pref. inversion F as [|? ? F1 F']; inversion F' as [|? ? F2 F'']; inversion F'' as [|? ? F3 _]; subst.
    destruct (lk_noext m), (lk_pk m), (lk_ref m); rewrite <- ?app_assoc; pieces.
  - unfold hubinfo_marshal in H. binds. inversion F as [|? ? F1 F']; inversion F' as [|? ? F2 F'']; inversion F'' as [|? ? F3 F3']; inversion F3' as [|? ? F4 _]; subst.
    destruct (hi_vers m); rewrite <- ?app_assoc; pieces.
  - unfold search_marshal in H. binds. inversion F as [|? ? F1 _]; subst.
    assert (A : ~ In c x). { destruct (se_address m); binds; [pieces|exact F1]. }
    assert (A0 : ~ In c x0).
    { destruct (se_dtype m =? data_tth)%N; [destruct (se_tth m)|]; binds; [piece|]. apply replace_no; [destruct Hc; subst; discriminate|piece]. }
    destruct (se_restricted m), (se_ismax m); pieces.
  - unfold sr_marshal in H. binds. destruct (sr_path m) eqn:Ep; binds. inversion F as [|? ? F1 _]; subst.
    assert (A : ~ In c x1) by (destruct (sr_tth m); piece).
    assert (A0 : ~ In c x2). { destruct (sr_to m); binds; [not_in|]. intros [K|K]; [destruct Hc; subst; discriminate|]. revert K. piece. }
    destruct (sr_isdir m).
    + pieces.
    + change (sr_sep :: format_uint (sr_size m)) with ([sr_sep] ++ format_uint (sr_size m)). rewrite <- !app_assoc. pieces.
  - unfold sa_marshal in H. binds. inversion F; subst. pieces.
  - unfold sp_marshal in H. binds. pieces.
  - unfold myinfo_marshal, tag_text in H. binds. inversion F as [|? ? F1 F']; inversion F' as [|? ? F2 F'']; inversion F'' as [|? ? F3 F3']; inversion F3' as [|? ? F4 F5]; subst.
    assert (M : ~ In c [mode_byte (mi_mode m)]). { unfold mode_byte. destruct (_ || _)%bool; [apply lit_no; reflexivity|exact F3]. }
    assert (M2 : ~ In c [if beq (mi_flag m) x00 then x01 else mi_flag m]). { destruct (beq (mi_flag m) x00); [apply lit_no; reflexivity|exact F4]. }
    assert (X : ~ In c (extra_text (mi_extra m))) by (apply extra_text_no; exact F5).
    rewrite <- !app_assoc. pieces.
  - eapply userip_no; eassumption.
  - binds. apply join_no; [apply lit_no; reflexivity|exact F].
  - binds. inversion F as [|? ? _ F']; inversion F'; subst. assumption.
Qed.
End Reserved.

(** ** The frame *)

Lemma type_clean m c : c = "|"%byte \/ c = x00 \/ c = " "%byte -> (forall t d, m = MRaw t d -> ~ In c t) -> ~ In c (msg_type m).
Proof.
  intros Hc H. destruct m; try (eapply H; reflexivity); cbn [msg_type]; try (destruct k); destruct Hc as [->|[->| ->]]; not_in.
Qed.
Lemma type_nil m : msg_type m = [] -> (exists ch, m = MChat ch) \/ exists d, m = MRaw [] d.
Proof. destruct m; cbn [msg_type]; try (destruct k); try discriminate; intros H; [left; eexists; reflexivity|right; subst; eexists; reflexivity]. Qed.

Lemma marshal_to_frame enc buf m p : msg_marshal enc m = Ok p -> (msg_type m <> [] \/ p <> []) ->
  exists f, framed (msg_type m) p f /\ marshal_to enc buf m = Ok (buf ++ f).
Proof.
  intros H N. unfold marshal_to, msg_head. rewrite H. cbn [bind]. destruct (msg_type m) as [|c0 t]; destruct p as [|c1 p].
  - destruct N; contradiction.
  - exists ((c1 :: p) ++ B "|"). split; [constructor; discriminate|]. rewrite app_nil_r. reflexivity.
  - exists (B "$" ++ (c0 :: t) ++ B "|"). split; [constructor; discriminate|].
    replace (buf ++ B "$" ++ (c0 :: t) ++ B " ") with ((buf ++ B "$" ++ c0 :: t) ++ B " ") by (rewrite <- !app_assoc; reflexivity).
    destruct ((buf ++ B "$" ++ c0 :: t) ++ B " ") eqn:E; [destruct (buf ++ B "$" ++ c0 :: t); discriminate|]. rewrite <- E.
    change (B " ") with [" "%byte]. rewrite removelast_last. f_equal. rewrite <- !app_assoc. reflexivity.
  - exists (B "$" ++ (c0 :: t) ++ B " " ++ (c1 :: p) ++ B "|"). split; [constructor; discriminate|]. rewrite <- !app_assoc. reflexivity.
Qed.
Lemma framed_unique t p f f' : framed t p f -> framed t p f' -> f = f'.
Proof. intros H H'. destruct H; inversion H'; subst; try contradiction; reflexivity. Qed.
Lemma framed_body t p f c : framed t p f -> c <> "$"%byte -> c <> " "%byte -> ~ In c t -> ~ In c p -> exists body, f = body ++ B "|" /\ ~ In c body.
Proof.
  intros H H1 H2 H3 H4. destruct H.
  - exists p. split; [reflexivity|assumption].
  - exists (B "$" ++ t). split; [rewrite <- app_assoc; reflexivity|]. apply in_app_not; [intros K; cbv in K; destruct K as [K|[]]; subst c; contradiction|assumption].
  - exists (B "$" ++ t ++ B " " ++ p). split; [rewrite <- !app_assoc; reflexivity|].
    apply in_app_not; [intros K; cbv in K; destruct K as [K|[]]; subst c; contradiction|]. apply in_app_not; [assumption|]. apply in_app_not; [intros K; cbv in K; destruct K as [K|[]]; subst c; contradiction|assumption].
Qed.

(** ** Crashes when encoding *)

Ltac no_panic := repeat match goal with
  | H : bind _ _ = Panic |- _ => apply bind_panic in H; destruct H as [H|(? & ? & H)]
  | H : Ok _ = Panic |- _ => discriminate H
  | H : Err _ = Panic |- _ => discriminate H
  | H : name_marshal _ _ = Panic |- _ => now apply name_marshal_total in H
  | H : string_marshal _ _ = Panic |- _ => now apply string_marshal_total in H
  end.
Lemma path_total enc l : forall first, marshal_path enc first l <> Panic.
Proof. induction l as [|s l IH]; intros first H; cbn [marshal_path] in H; no_panic. now apply IH in H. Qed.
Lemma names_total enc l : names_loop enc l <> Panic.
Proof. induction l as [|s l IH]; intros H; cbn [names_loop] in H; no_panic. now apply IH in H. Qed.
Lemma userip_total enc l : userip_marshal enc l <> Panic.
Proof. induction l as [|[n ip] l IH]; intros H; cbn [userip_marshal] in H; no_panic. now apply IH in H. Qed.
Lemma tth_total h : length h = 24 -> marshal_tth h <> Panic.
Proof. intros L H. rewrite (tth_marshal h (hash_base32 h)) in H by (apply hash_spelled_iff; auto). discriminate. Qed.
Lemma tths_total h : length h = 24 -> marshal_tth_space h <> Panic.
Proof. intros L H. rewrite (tth_space h (hash_base32 h)) in H by (apply hash_spelled_iff; auto). discriminate. Qed.
Lemma payload_total enc m : sized m -> msg_marshal enc m <> Panic.
Proof.
  intros S H. destruct m; cbn [msg_marshal sized] in *; no_panic.
  - destruct e; cbn [err_marshal] in H; no_panic.
  - unfold names_marshal in H. destruct l; no_panic. now apply names_total in H.
  - unfold chat_marshal in H. destruct (ch_name m); no_panic.
  - unfold pm_marshal in H. no_panic.
  - unfold mcto_marshal in H. no_panic.
  - unfold ucmd_marshal in H. destruct (uc_path m), (uc_command m); no_panic; now apply path_total in H.
  - unfold ctm_marshal in H. destruct (ct_targ m), (ct_kind m =? 0)%Z, (ct_kind m =? 1)%Z, (ct_kind m =? 2)%Z, (ct_src m); no_panic.
  - unfold rctm_marshal in H. no_panic.
  - unfold adcget_marshal in H. no_panic.
  - unfold adcsnd_marshal in H. no_panic.
  - unfold hubinfo_marshal in H. no_panic.
  - unfold search_marshal in H. destruct (se_address m), (se_dtype m =? data_tth)%N, (se_tth m); no_panic; now apply tth_total in H.
  - unfold sr_marshal in H. destruct (sr_path m), (sr_tth m), (sr_to m); no_panic; first [now apply path_total in H|now apply tth_total in H].
  - unfold sa_marshal in H. no_panic. now apply tths_total in H.
  - unfold sp_marshal in H. no_panic. now apply tths_total in H.
  - unfold myinfo_marshal in H. no_panic.
  - now apply userip_total in H.
Qed.
Lemma marshal_to_panics enc buf m : sized m ->
  (marshal_to enc buf m = Panic <-> buf = [] /\ msg_type m = [] /\ msg_marshal enc m = Ok []).
Proof.
  intros S. split.
  - intros H. destruct (msg_marshal enc m) as [p|e|] eqn:E.
    + destruct (msg_type m) as [|c t] eqn:T; destruct p as [|c1 p].
      * unfold marshal_to, msg_head in H. rewrite E, T in H. cbn [bind] in H. rewrite app_nil_r in H. destruct buf; [auto|discriminate].
      * destruct (marshal_to_frame enc buf m _ E) as (f & _ & K); [right; discriminate|congruence].
      * destruct (marshal_to_frame enc buf m _ E) as (f & _ & K); [left; rewrite T; discriminate|congruence].
      * destruct (marshal_to_frame enc buf m _ E) as (f & _ & K); [right; discriminate|congruence].
    + unfold marshal_to in H. rewrite E in H. discriminate.
    + now apply payload_total in E.
  - intros (-> & T & E). unfold marshal_to, msg_head. rewrite T, E. reflexivity.
Qed.
