(** Encoding and decoding all messages; crashes of the decoder; reused messages. *)
From Verif Require Import Base BaseFacts Num NumFacts Utf8 Utf8Facts NmdcText NmdcTextFacts SpecText SpecHash SpecNmdc NmdcMsgFacts NmdcChat NmdcHub NmdcFiles NmdcUser NmdcMessage
  Base32 Base32Facts Tiger TigerFacts NmdcChatFacts NmdcHubFacts NmdcFilesFacts NmdcUserFacts SpecFrame NmdcFrameFacts.
From Coq Require Import Lia.

(** ** Round trips of all messages *)

Lemma wire_encodes enc dec m p : wire enc dec m p -> msg_marshal enc m = Ok p.
Proof.
  intros H. destruct H; cbn [msg_marshal].
  - texts. assumption.
  - texts. assumption.
  - reflexivity.
  - reflexivity.
  - eapply err_encodes; eassumption.
  - eapply names_encodes; eassumption.
  - eapply chat_encodes; eassumption.
  - eapply pm_encodes; eassumption.
  - eapply mcto_encodes; eassumption.
  - eapply ucmd_encodes; eassumption.
  - eapply ctm_encodes; eassumption.
  - eapply rctm_encodes; eassumption.
  - eapply adcget_encodes; eassumption.
  - eapply adcsnd_encodes; eassumption.
  - f_equal. eapply direction_encodes; eassumption.
  - f_equal. eapply failover_encodes; eassumption.
  - f_equal. eapply lock_encodes; eassumption.
  - eapply hubinfo_encodes; eassumption.
  - eapply search_encodes; eassumption.
  - eapply sr_encodes; eassumption.
  - eapply sa_encodes; eassumption.
  - eapply sp_encodes; eassumption.
  - eapply myinfo_encodes; eassumption.
  - eapply userip_encodes; eassumption.
  - f_equal. eapply supports_encodes; eassumption.
  - reflexivity.
Qed.

Lemma lift_ok {A} (c : A -> msg) p a : p = (a, Ok tt) -> lift c p = (c a, Ok tt).
Proof. intros ->. reflexivity. Qed.
Lemma wire_decodes enc dec m p m0 : wire enc dec m p -> same_kind m m0 -> sized m0 -> unset m0 -> msg_unmarshal dec m0 p = (m, Ok tt).
Proof.
  intros H K S U. destruct H; destruct m0; cbn [same_kind] in K; try contradiction; try subst; cbn [msg_unmarshal sized unset] in *;
    try (apply lift_ok).
  - unfold name_msg_unmarshal. texts. steps. reflexivity.
  - unfold string_msg_unmarshal. texts. steps. reflexivity.
  - reflexivity.
  - reflexivity.
  - eapply err_decodes; [eassumption|right; exact U].
  - eapply names_decodes; eassumption.
  - eapply chat_decodes; [eassumption|right; exact U].
  - eapply pm_decodes; eassumption.
  - eapply mcto_decodes; eassumption.
  - eapply ucmd_decodes; [eassumption|apply U|apply U].
  - eapply ctm_decodes; [eassumption|apply U|apply U].
  - eapply rctm_decodes; eassumption.
  - eapply adcget_decodes; [eassumption|apply U|apply U].
  - eapply adcsnd_decodes; eassumption.
  - eapply direction_decodes; eassumption.
  - rewrite (failover_decodes _ _ H). reflexivity.
  - rewrite (lock_decodes _ _ H). reflexivity.
  - eapply hubinfo_decodes; eassumption.
  - eapply search_decodes; [eassumption|apply U..].
  - eapply sr_decodes; [eassumption|apply U..].
  - eapply sa_decodes; eassumption.
  - eapply sp_decodes; eassumption.
  - eapply myinfo_decodes; eassumption.
  - eapply userip_decodes; eassumption.
  - rewrite (supports_decodes _ _ H). reflexivity.
  - reflexivity.
Qed.

(** The message created for a command name. *)
Definition raw_name (m : msg) : Prop := match m with MRaw t _ => is_registered t = false | _ => True end.
Lemma lookup_none l t : existsb (fun m => bytes_eqb (msg_type m) t) l = false -> lookup l t = MRaw t [].
Proof.
  induction l as [|m l IH]; cbn [existsb lookup]; intros H; [reflexivity|]. apply orb_false_iff in H. destruct H as [H1 H2]. rewrite H1. exact (IH H2).
Qed.
Lemma new_message_fresh m : raw_name m -> same_kind m (new_message (msg_type m)) /\ sized (new_message (msg_type m)) /\ unset (new_message (msg_type m)).
Proof.
  destruct m; try (destruct k); intros H; try (vm_compute; repeat split; reflexivity).
  cbn [msg_type]. unfold new_message. rewrite lookup_none by exact H. repeat split.
Qed.
Lemma wire_fresh enc dec m p : wire enc dec m p -> raw_name m -> msg_unmarshal dec (new_message (msg_type m)) p = (m, Ok tt).
Proof. intros H R. destruct (new_message_fresh m R) as (K & S & U). eapply wire_decodes; eassumption. Qed.

(** A message of a registered type and nothing else is created for a registered command. *)
Lemma new_message_type t : msg_type (new_message t) = t.
Proof.
  unfold new_message. induction registered as [|m l IH]; cbn [lookup]; [reflexivity|].
  destruct (bytes_eqb (msg_type m) t) eqn:E; [apply bytes_eqb_true in E; exact E|exact IH].
Qed.
Lemma unmarshal_type dec m data : msg_type (fst (msg_unmarshal dec m data)) = msg_type m.
Proof. destruct m; reflexivity. Qed.

(** ** Crashes of the decoder *)

Ltac no_crash := repeat match goal with
  | H : snd (match ?r with Ok _ => _ | Err _ => _ | Panic => _ end) = Panic |- _ =>
      let E := fresh "E" in destruct r eqn:E; cbn [snd] in H;
      try discriminate H;
      try (exfalso; first [now apply name_unmarshal_total in E|now apply string_unmarshal_total in E|now apply parse_uint_trim_total in E|now apply atoi_trim_total in E])
  | H : snd (match ?r with Some _ => _ | None => _ end) = Panic |- _ => destruct r as [[? ?]|] eqn:?; cbn [snd] in H; try discriminate H
  | H : snd (_, Ok _) = Panic |- _ => discriminate H
  | H : snd (_, Err _) = Panic |- _ => discriminate H
  | H : snd (lift _ _) = Panic |- _ => unfold lift in H; cbn [snd] in H
  end.

Lemma chat_text_total dec m d : snd (chat_text dec m d) <> Panic.
Proof. unfold chat_text. intros H. no_crash. Qed.
Lemma name_end_total f : forall d base, name_end f d base <> Panic.
Proof.
  induction f as [|f IH]; intros d base; cbn [name_end]; [discriminate|]. destruct (base <? length d)%nat; [|discriminate].
  destruct (index_stop (skipn base d)) as [j|]; [|destruct (base =? 0)%nat; discriminate].
  destruct (beq _ ">"); [|destruct (base =? 0)%nat; discriminate]. destruct (_ =? _)%nat; [discriminate|].
  destruct (decode_rune _) as [r sz]. destruct (is_space_rune r); [discriminate|apply IH].
Qed.
Lemma chat_total dec m d : snd (chat_unmarshal dec m d) <> Panic.
Proof.
  unfold chat_unmarshal. destruct d as [|c d]; [apply chat_text_total|]. destruct (beq c "<"); [|apply chat_text_total].
  intros H. destruct (name_end _ d 0) as [[i off]|e|] eqn:E; cbn [snd] in H; [|discriminate|now apply name_end_total in E].
  destruct (_ <? _)%nat; [discriminate|]. no_crash. now apply chat_text_total in H.
Qed.
Lemma path_un_total dec l : forall acc, snd (unmarshal_path dec l acc) <> Panic.
Proof.
  induction l as [|[|c p] l IH]; intros acc H; cbn [unmarshal_path] in H; [discriminate|now apply IH in H|]. no_crash. now apply IH in H.
Qed.
Lemma ucmd_total dec m d : snd (ucmd_unmarshal dec m d) <> Panic.
Proof.
  unfold ucmd_unmarshal. intros H. destruct (splitn_byte 3 " " (trim_white d)) as [|a0 [|a1 arr]]; try discriminate.
  no_crash. destruct arr as [|v arr]; [discriminate|]. destruct (cut "$" v) as [[[|c0 p] rest]|]; try discriminate.
  pose proof (path_un_total dec (split_byte "\" (trim_right_by is_sp (c0 :: p))) []) as T. destruct (unmarshal_path _ _ _) as [path r]. cbn [snd] in T. no_crash. contradiction.
Qed.
Lemma ctm_total dec m d : snd (ctm_unmarshal dec m d) <> Panic.
Proof.
  unfold ctm_unmarshal. intros H. no_crash;
  repeat match type of H with context [if ?x then _ else _] => destruct x end; discriminate.
Qed.
Lemma flags_total f : forall m d, snd (adcget_flags f m d) <> Panic.
Proof.
  induction f as [|f IH]; intros m [|c d] H; cbn [adcget_flags] in H; try discriminate. destruct (cut_or_all (c :: d)) as [fld r].
  destruct (bytes_eqb fld (B "ZL1")); [now apply IH in H|]. destruct (has_prefix (B "DB") fld); [|now apply IH in H]. no_crash. now apply IH in H.
Qed.
Lemma adcget_total dec m d : snd (adcget_unmarshal dec m d) <> Panic.
Proof.
  unfold adcget_unmarshal. intros H. no_crash. destruct (cut_or_all _) as [le r]. destruct (bytes_eqb le (B "-1")); [now apply flags_total in H|]. no_crash. now apply flags_total in H.
Qed.
Lemma adcsnd_total dec m d : snd (adcsnd_unmarshal dec m d) <> Panic.
Proof.
  unfold adcsnd_unmarshal. intros H. no_crash. destruct (cut_or_all _) as [le r]. no_crash. destruct r; [discriminate|]. destruct (bytes_eqb _ _); discriminate.
Qed.
Lemma direction_total m d : snd (direction_unmarshal m d) <> Panic.
Proof.
  unfold direction_unmarshal. intros H. no_crash.
  destruct (bytes_eqb _ (B "Download")); [|destruct (bytes_eqb _ (B "Upload"))]; no_crash; destruct (_ || _)%bool; discriminate.
Qed.
Lemma hubinfo_total dec n l : forall i m, snd (hubinfo_fields dec n i m l) <> Panic.
Proof.
  induction l as [|f l IH]; intros i m H; cbn [hubinfo_fields] in H; [discriminate|].
  assert (T : snd (hubinfo_field dec n i m f) <> Panic).
  { clear H. intros H. unfold hubinfo_field in H. do 11 (destruct i as [|i]; [no_crash|]). discriminate. }
  destruct (hubinfo_field dec n i m f) as [m' e]. cbn [snd] in T. no_crash; [now apply IH in H|contradiction].
Qed.
Lemma names_un_total dec m d : snd (names_unmarshal dec m d) <> Panic.
Proof.
  assert (T : forall l, names_sub dec l <> Panic).
  { induction l as [|x l IH]; cbn [names_sub]; [discriminate|].
    intros E. apply bind_panic in E. destruct E as [E|(? & _ & E)]; [now apply name_unmarshal_total in E|].
    apply bind_panic in E. destruct E as [E|(? & _ & E)]; [auto|discriminate]. }
  unfold names_unmarshal. intros H. destruct (trim_suffix (B "$$") d); [discriminate|].
  destruct (names_sub dec _) eqn:E; [discriminate|discriminate|now apply T in E].
Qed.
Lemma userip_un_total dec d : snd (userip_unmarshal dec d) <> Panic.
Proof.
  unfold userip_unmarshal. generalize (@nil (bytes * bytes)). induction (split_seq (B "$$") (trim_suffix (B "$$") (trim_suffix [x0d] d))) as [|s l IH]; intros acc H; cbn [userip_sub] in H; [discriminate|]. destruct (match last_cut " " s with Some _ => _ | None => _ end) as [n ip]. no_crash. now apply IH in H.
Qed.
Lemma tag_fields_total l : forall m cl first, snd (tag_fields m cl first l) <> Panic.
Proof.
  induction l as [|[|c f] l IH]; intros m cl first H; cbn [tag_fields] in H; [discriminate|now apply IH in H|].
  destruct (cut ":" (c :: f)) as [[[|k0 k] v]|]; [discriminate| |destruct first; [now apply IH in H|discriminate]].
  assert (T : snd (tag_value m (k0 :: k) v) <> Panic).
  { clear H. intros H. destruct k as [|k1 k]; [|discriminate]. unfold tag_value in H. cbv zeta in H.
    destruct (beq (upper_key k0) "V"); [discriminate|]. destruct (beq (upper_key k0) "M"); [discriminate|].
    destruct (beq (upper_key k0) "H").
    - destruct v as [|v0 v]; [discriminate|]. destruct (contains_byte "/" (v0 :: v)); [|no_crash].
      destruct (split_byte "/" (v0 :: v)) as [|a [|b [|c' [|? ?]]]]; try discriminate. no_crash.
    - destruct (beq (upper_key k0) "S"); [no_crash|discriminate]. }
  destruct (tag_value m (k0 :: k) v) as [m' [u|e|]]; cbn [snd] in *; [now apply IH in H|discriminate|contradiction].
Qed.
Lemma myinfo_total dec m d : snd (myinfo_unmarshal dec m d) <> Panic.
Proof.
  assert (E3 : forall m f3 f4, snd (myinfo_end dec m f3 f4) <> Panic).
  { intros m1 f3 f4 H. unfold myinfo_end in H. no_crash. destruct f4; discriminate. }
  assert (E2 : forall m h f1 f2 f3 f4, snd (myinfo_rest dec m h f1 f2 f3 f4) <> Panic).
  { intros m1 h f1 f2 f3 f4 H. unfold myinfo_rest in H. destruct f1 as [|md [|? ?]]; try discriminate. destruct (rev f2); [now apply E3 in H|]. no_crash. now apply E3 in H. }
  unfold myinfo_unmarshal. intros H. destruct (has_prefix _ d); [|discriminate].
  destruct (cut " " (skipn 5 d)) as [[nn rest]|]; [|discriminate]. destruct (name_unmarshal dec nn) as [a|e|] eqn:En; [|discriminate|now apply name_unmarshal_total in En].
  destruct (split_byte "$" rest) as [|f0 [|f1 [|f2 [|f3 [|f4 [|f5 [|? ?]]]]]]]; try discriminate.
  assert (T : snd (myinfo_desc dec (set_mi_name m a) f0) <> Panic).
  { clear H. intros H. unfold myinfo_desc in H. destruct (last_cut "<" f0) as [[ds tg]|]; [|no_crash].
    destruct tg as [|t0 tg]; [discriminate|]. set (tag := if last_is ">" (t0 :: tg) then drop_last (t0 :: tg) else t0 :: tg) in *.
    assert (T : snd (unmarshal_tag (set_mi_mode (set_mi_name m a) x00) tag) <> Panic).
    { clear H. unfold unmarshal_tag. destruct (match cut_seq (B " V:") tag with Some _ => _ | None => _ end) as [cl tg'].
      pose proof (tag_fields_total (split_byte "," tg') (set_mi_extra (set_mi_mode (set_mi_name m a) x00) []) cl true) as T.
      destruct (tag_fields _ cl true _) as [[m' cl'] e]. cbn [snd] in T. intros H. no_crash. contradiction. }
    destruct (unmarshal_tag _ tag) as [m' e]. cbn [snd] in T. no_crash. contradiction. }
  destruct (myinfo_desc dec (set_mi_name m a) f0) as [m' r]. cbn [snd] in T. no_crash; [now apply E2 in H|contradiction].
Qed.

Lemma starts_symbols_app n s x : starts_with_symbols n s -> starts_with_symbols n (s ++ x).
Proof. intros (t & r & vs & -> & H). exists t, (r ++ x), vs. rewrite <- app_assoc. auto. Qed.
Lemma short_hash h0 s : length h0 = 24 -> length s <= 39 -> fst (hash_unmarshal_base32 h0 s) <> Panic.
Proof.
  intros L Hs H. apply unmarshal_panics in H; [|exact L]. destruct H as (t & r & vs & E & Ht & _).
  assert (length (unbroken s) <= length s).
  { unfold unbroken. clear. induction s as [|c s IH]; cbn [filter length]; [lia|]. destruct (negb _); cbn [length]; lia. }
  rewrite E, app_length in H. lia.
Qed.
Lemma sr_total_un dec m d : snd (sr_unmarshal dec m d) <> Panic.
Proof.
  assert (T1 : forall m d, snd (sr_tail dec m d) <> Panic).
  { clear. intros m d H. unfold sr_tail in H. destruct (cut ")" d) as [[ad b0]|]; [|discriminate]. destruct b0 as [|c0 [|c1 d']]; try discriminate. destruct (beq c0 sr_sep); [no_crash|discriminate]. }
  assert (T2 : forall m d, snd (sr_hub dec m d) <> Panic).
  { clear - T1. intros m d H. unfold sr_hub in H. destruct (has_prefix (B "TTH:") d).
    - destruct (has_prefix (B " (") _); [|discriminate]. unfold new_tth in H.
      pose proof (short_hash (repeat x00 hash_size) (firstn base32_size (skipn 4 d)) eq_refl) as S. 
      destruct (hash_unmarshal_base32 (repeat x00 hash_size) (firstn base32_size (skipn 4 d))) as [r h]. cbn [fst] in S. no_crash; [now apply T1 in H|].
      apply S; [|reflexivity]. rewrite firstn_length. change base32_size with 39. lia.
    - no_crash. now apply T1 in H. }
  assert (T3 : forall m p s d, snd (sr_slots dec m p s d) <> Panic).
  { clear - T2. intros m p s d H. unfold sr_slots in H. no_crash. now apply T2 in H. }
  unfold sr_unmarshal. intros H. destruct (cut " " d) as [[nn rest]|]; [|discriminate]. destruct (name_unmarshal dec nn) as [a|e|] eqn:En; [|discriminate|now apply name_unmarshal_total in En].
  destruct (cut sr_sep rest) as [[b1 rest1]|]; [|discriminate]. destruct (sr_scan (rev b1) false []) as [[|] [[? ?]|]]; no_crash; now apply T3 in H.
Qed.

Lemma splitn_join n c s : join [c] (splitn_byte (S n) c s) = s.
Proof.
  revert s. induction n as [|n IH]; intros s; [reflexivity|].
  change (splitn_byte (S (S n)) c s) with (match cut c s with None => [s] | Some (a, r) => a :: splitn_byte (S n) c r end).
  destruct (cut c s) as [[a r]|] eqn:E; [|reflexivity]. apply cut_spec in E. destruct E as [-> _].
  specialize (IH r). destruct (splitn_byte (S n) c r) as [|y l] eqn:Es.
  - exfalso. cbn [splitn_byte] in Es. destruct n; [discriminate|]. destruct (cut c r) as [[? ?]|]; discriminate.
  - rewrite join_cons2, IH. reflexivity.
Qed.
Lemma search_panics dec m d : snd (search_unmarshal dec m d) = Panic ->
  exists pre h, d = pre ++ B "?TTH:" ++ h /\ starts_with_symbols 40 (unbroken h).
Proof.
  assert (T : forall m d, snd (search_string dec m d) = Panic -> exists pre h, d = pre ++ B "?TTH:" ++ h /\ starts_with_symbols 40 (unbroken h)).
  { clear. intros m d H. unfold search_string in H. destruct (splitn_byte 5 "?" d) as [|f0 [|f1 [|f2 [|f3 [|f4 [|? ?]]]]]] eqn:E; try discriminate.
    assert (D : exists pre, d = pre ++ "?"%byte :: f4).
    { exists (f0 ++ B "?" ++ f1 ++ B "?" ++ f2 ++ B "?" ++ f3). pose proof (splitn_join 4 "?" d) as J. rewrite E in J. cbn in J. rewrite <- J. repeat (rewrite <- ?app_assoc; cbn [app]); reflexivity. }
    destruct D as [pre ->].
    assert (F : forall x, unmarshal_flag x <> Panic).
    { clear. intros [|c [|? ?]]; cbn; try discriminate. destruct (beq c "T"); [discriminate|destruct (beq c "F"); discriminate]. }
    destruct (unmarshal_flag f0) eqn:E0; [|discriminate|now apply F in E0]. destruct (unmarshal_flag f1) eqn:E1; [|discriminate|now apply F in E1].
    assert (N : forall m, snd (search_size m f2) <> Panic).
    { intros m'. unfold search_size. destruct f2 as [|c f2]; [discriminate|]. destruct (beq c "-"); [destruct (parse_uint_trim f2) eqn:P|destruct (parse_uint_trim (c :: f2)) eqn:P]; try discriminate; now apply parse_uint_trim_total in P. }
    specialize (N (set_se_ismax (set_se_restricted m a) a0)). destruct (search_size _ f2) as [m1 [[]|e|]]; [|discriminate|now destruct N].
    no_crash. unfold search_what in H. destruct (_ =? data_tth)%N; [|no_crash]. destruct (has_prefix (B "TTH:") f4) eqn:P; [|discriminate].
    apply has_prefix_spec in P. destruct P as [h ->]. change (skipn 4 (B "TTH:" ++ h)) with h in H. unfold new_tth in H.
    exists pre, h. split; [reflexivity|].
    pose proof (unmarshal_panics (repeat x00 hash_size) (if last_is "$" h then drop_last h else h) eq_refl) as U.
    destruct (hash_unmarshal_base32 (repeat x00 hash_size) (if last_is "$" h then drop_last h else h)) as [r h']. cbn [snd fst] in H, U. apply U in H.
    destruct (last_is "$" h) eqn:L; [|exact H].
    assert (Eh : h = drop_last h ++ ["$"%byte]).
    { destruct h as [|c0 h0] using rev_ind; [discriminate|]. rewrite last_is_app in L. apply beq_true in L. subst. rewrite drop_last_app. reflexivity. }
    rewrite Eh. unfold unbroken. rewrite filter_app. apply starts_symbols_app. exact H. }
  unfold search_unmarshal. intros H. destruct (cut " " d) as [[f0 f1]|] eqn:E; [|discriminate]. apply cut_spec in E. destruct E as [-> _].
  assert (K : exists m', snd (search_string dec m' f1) = Panic).
  { destruct (has_prefix (B "Hub:") f0); [|eauto]. no_crash. eauto. }
  destruct K as [m' K]. destruct (T _ _ K) as (pre & h & -> & S). exists (f0 ++ " "%byte :: pre), h. split; [rewrite <- app_assoc; reflexivity|exact S].
Qed.

Lemma unmarshal_panics_only dec m d : sized m -> snd (msg_unmarshal dec m d) = Panic ->
  exists s pre h, m = MSearch s /\ d = pre ++ B "?TTH:" ++ h /\ starts_with_symbols 40 (unbroken h).
Proof.
  intros S H. destruct m; cbn [msg_unmarshal sized] in *; no_crash.
  - unfold name_msg_unmarshal in H. no_crash.
  - unfold string_msg_unmarshal in H. no_crash.
  - unfold noargs_unmarshal in H. cbn in H. destruct d; discriminate.
  - unfold err_unmarshal in H. no_crash.
  - now apply names_un_total in H.
  - now apply chat_total in H.
  - unfold pm_unmarshal in H. no_crash.
  - unfold mcto_unmarshal in H. no_crash.
  - now apply ucmd_total in H.
  - now apply ctm_total in H.
  - unfold rctm_unmarshal in H. no_crash.
  - now apply adcget_total in H.
  - now apply adcsnd_total in H.
  - now apply direction_total in H.
  - now apply hubinfo_total in H.
  - apply search_panics in H. destruct H as (pre & h & H). exists m, pre, h. tauto.
  - now apply sr_total_un in H.
  - unfold sa_unmarshal in H. destruct (skipn base32_size d) as [|c a]; [discriminate|]. destruct (beq c " "); [|discriminate].
    pose proof (short_hash (sa_tth m) (firstn base32_size d) S) as P. destruct (hash_unmarshal_base32 _ _) as [r h]. cbn [fst] in P. no_crash.
    exfalso. apply P; [rewrite firstn_length; change base32_size with 39; lia|reflexivity].
  - unfold sp_unmarshal in H. destruct (skipn base32_size d) as [|c a]; [discriminate|]. destruct (beq c " "); [|discriminate].
    pose proof (short_hash (sp_tth m) (firstn base32_size d) S) as P. destruct (hash_unmarshal_base32 _ _) as [r h]. cbn [fst] in P. no_crash.
    exfalso. apply P; [rewrite firstn_length; change base32_size with 39; lia|reflexivity].
  - now apply myinfo_total in H.
  - now apply userip_un_total in H.
Qed.
