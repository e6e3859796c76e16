(** Lemmas about the types of the messages returned by the NMDC reader. *)
From Verif Require Import Base BaseFacts Utf8 NmdcText NmdcChat NmdcMessage SpecNmdc SpecFrame NmdcDecodeFacts NmdcFrameFacts
  LineReader SpecLine NmdcReader SpecReader NmdcReaderFacts.

(** The type of the messages accepted for a command. *)
Definition typ_of (cmd : option bytes) : bytes := match cmd with Some t => t | None => [] end.
Definition fits (cmd : option bytes) (m : msg) : Prop :=
  msg_type m = typ_of cmd /\ is_chat m = match cmd with Some _ => false | None => true end.

Lemma first_index_some {A} (q : A -> bool) : forall l i, first_index q l = Some i -> exists a, nth_error l i = Some a /\ q a = true.
Proof.
  induction l as [|a l IH]; intros i H; cbn in H; [discriminate|]. destruct (q a) eqn:E.
  - injection H as <-. exists a. auto.
  - destruct (first_index q l) as [j|]; [|discriminate]. injection H as <-. destruct (IH j eq_refl) as (b & K1 & K2). exists b. auto.
Qed.
Lemma first_index_none {A} (q : A -> bool) l : first_index q l = None <-> Forall (fun a => q a = false) l.
Proof.
  induction l as [|a l IH]; cbn; [split; [constructor|auto]|]. destruct (q a) eqn:E.
  - split; [discriminate|intros H; inversion H; congruence].
  - destruct (first_index q l) as [j|].
    + split; [discriminate|]. intros H. inversion H as [|? ? _ K]; subst. apply IH in K. discriminate.
    + split; auto. intros _. constructor; [exact E|]. now apply IH.
Qed.

Section Types.
Context {W : Type}.
Implicit Types s : rstate W.

Lemma choose_ok cmd args s s1 : cmd <> Some [] -> choose cmd args s = inr s1 ->
  rs_w s1 = rs_w s /\ rs_dec s1 = rs_dec s /\ rs_set s1 = rs_set s /\ rs_allowed s1 = rs_allowed s /\
  exists m, slot_msg s1 = Some m /\ fits cmd m /\
    match rs_allowed s with
    | [] => slot_msg s = Some m /\ s1 = s \/ slot_msg s = None /\ s1 = with_slot (SOwn m) s
    | _ => exists i, rs_slot s1 = SAllowed i
    end.
Proof.
  intros NE. unfold choose. destruct s as [w d st sl al]. cbn [rs_allowed rs_slot rs_w rs_dec rs_set].
  assert (HN : forall t, is_chat (new_message t) = true -> t = []).
  { intros t K. pose proof (new_message_type t) as Ht. destruct (new_message t); try discriminate K. cbn in Ht. congruence. }
  destruct al as [|m0 al0].
  - destruct (slot_msg (mkRs w d st sl [])) as [m|] eqn:E.
    + intros H. assert (s1 = mkRs w d st sl []) as ->.
      { destruct cmd as [t|]; destruct (is_chat m); try discriminate H; try congruence. destruct (bytes_eqb (msg_type m) t); congruence. }
      repeat split. exists m. split; [exact E|]. split; [|left; auto].
      destruct cmd as [t|]; destruct (is_chat m) eqn:C; try discriminate H.
      * destruct (bytes_eqb (msg_type m) t) eqn:T; [|discriminate]. apply bytes_eqb_true in T. now split.
      * split; [|exact C]. destruct m; try discriminate C. reflexivity.
    + intros H. destruct cmd as [t|]; injection H as <-.
      * repeat split. exists (new_message t). split; [reflexivity|]. split; [|right; auto]. split; [apply new_message_type|].
        destruct (is_chat (new_message t)) eqn:C; [|reflexivity]. apply HN in C. subst t. now contradiction NE.
      * repeat split. exists (MChat chat0). split; [reflexivity|]. split; [now split|right; auto].
  - match goal with |- context [first_index ?q _] => destruct (first_index q (m0 :: al0)) as [i|] eqn:F; [|discriminate] end.
    apply first_index_some in F. destruct F as (m & F1 & F2). unfold with_slot, slot_msg. cbn [rs_slot rs_allowed rs_w rs_dec rs_set]. rewrite F1.
    intros H. assert (s1 = mkRs w d st (SAllowed i) (m0 :: al0)) as ->.
    { destruct cmd as [t|]; destruct (is_chat m); try discriminate H; try congruence. destruct (bytes_eqb (msg_type m) t); congruence. }
    repeat split. exists m. split; [exact F1|]. split; [|exists i; reflexivity].
    destruct cmd as [t|]; destruct (is_chat m) eqn:C; try discriminate H.
    + destruct (bytes_eqb (msg_type m) t) eqn:T; [|discriminate]. apply bytes_eqb_true in T. now split.
    + split; [|exact C]. destruct m; try discriminate C. reflexivity.
Qed.

Lemma set_nth_same {A} i (a : A) : forall l, i < length l -> nth_error (set_nth i a l) i = Some a.
Proof. induction i as [|i IH]; intros [|b l] H; cbn in *; try lia; [reflexivity|]. apply IH. lia. Qed.
Lemma set_nth_map {A B} (f : A -> B) i a : forall l, nth_error l i = Some a -> forall b, f b = f a -> map f (set_nth i b l) = map f l.
Proof. induction i as [|i IH]; intros [|x l] H b E; cbn in *; try discriminate; [injection H as ->; now rewrite E|f_equal; eauto]. Qed.

Definition alike_msg (a b : msg) : Prop := msg_type a = msg_type b /\ is_chat a = is_chat b /\ is_raw a = is_raw b.
Lemma unmarshal_alike dec m data : alike_msg (fst (msg_unmarshal dec m data)) m.
Proof. destruct m; now repeat split. Qed.
Lemma alike_msg_trans a b d : alike_msg a b -> alike_msg b d -> alike_msg a d.
Proof. intros (A1 & A2 & A3) (B1 & B2 & B3). repeat split; congruence. Qed.

(** The message behind the pointer is replaced by one of the same type. *)
Definition replaced_by s (m m2 : msg) (s2 : rstate W) : Prop :=
  slot_msg s2 = Some m2 /\ alike_msg m2 m /\ map msg_type (rs_allowed s2) = map msg_type (rs_allowed s) /\
  match rs_slot s with SAllowed i => rs_slot s2 = SAllowed i | _ => rs_slot s2 = SOwn m2 /\ rs_allowed s2 = rs_allowed s end.

Lemma put_replaced s m m2 : slot_msg s = Some m -> alike_msg m2 m -> replaced_by s m m2 (put_msg m2 s).
Proof.
  intros H A. destruct s as [w d st [|mo|i] al]; unfold slot_msg, put_msg, replaced_by in *; cbn in *; auto 8.
  assert (L : i < length al) by (apply nth_error_Some; congruence).
  split; [now apply set_nth_same|]. split; [exact A|]. split; [|reflexivity]. eapply set_nth_map; [exact H|apply A].
Qed.
Lemma replaced_trans a m m2 m3 b c' : replaced_by a m m2 b -> replaced_by b m2 m3 c' -> replaced_by a m m3 c'.
Proof.
  intros (A1 & A2 & A4 & A5) (B1 & B2 & B4 & B5). split; [exact B1|]. split; [eapply alike_msg_trans; eassumption|]. split; [congruence|].
  destruct (rs_slot a) as [|x|i].
  - destruct A5 as [A5 A6]. rewrite A5 in B5. destruct B5. split; congruence.
  - destruct A5 as [A5 A6]. rewrite A5 in B5. destruct B5. split; congruence.
  - rewrite A5 in B5. exact B5.
Qed.

Lemma decode_ok (c : ncfg W) args s m s2 r : slot_msg s = Some m -> decode_into c args s = (s2, r) ->
  exists m2, replaced_by s m m2 s2 /\ (forall t d, m = MRaw t d -> r = inr (Ok tt) /\ m2 = MRaw t args).
Proof.
  intros H. unfold decode_into. rewrite H.
  destruct (msg_unmarshal (rs_dec s) m args) as [m1 r1] eqn:E.
  pose proof (unmarshal_alike (rs_dec s) m args) as T1. rewrite E in T1. cbn [fst] in T1.
  pose proof (put_replaced s m m1 H T1) as P1.
  assert (HR : forall t d, m = MRaw t d -> r1 = Ok tt /\ m1 = MRaw t args) by (intros t d ->; cbn in E; injection E as <- <-; auto).
  assert (D : (s2, r) = (put_msg m1 s, inr r1) -> exists m2, replaced_by s m m2 s2 /\ (forall t d, m = MRaw t d -> r = inr (Ok tt) /\ m2 = MRaw t args)).
  { intros K. injection K as -> ->. exists m1. split; [exact P1|]. intros t d K. destruct (HR t d K) as [-> ->]. auto. }
  destruct (nc_unknown c) as [f|]; [|intros K; apply D; congruence].
  destruct r1 as [[]|[]|]; try (intros K; apply D; congruence).
  destruct (f (rs_w (put_msg m1 s)) text) as [w [dec|e]].
  - destruct (msg_unmarshal dec m1 match dec with Some _ => args | None => to_valid args end) as [m2 r2] eqn:E2. intros K. injection K as <- <-.
    pose proof (unmarshal_alike dec m1 match dec with Some _ => args | None => to_valid args end) as T2. rewrite E2 in T2. cbn [fst] in T2.
    exists m2. split; [|intros t d Km; destruct (HR t d Km); discriminate].
    eapply replaced_trans; [exact P1|].
    set (s1 := put_msg m1 s) in *.
    assert (P2 : slot_msg (mkRs w dec match dec with Some _ => dec | None => rs_set s1 end (rs_slot s1) (rs_allowed s1)) = Some m1) by (destruct P1 as (P1 & _); exact P1).
    exact (put_replaced _ _ _ P2 T2).
  - intros K. injection K as <- <-. exists m1. split; [exact P1|]. intros t d Km. destruct (HR t d Km). discriminate.
Qed.

(** What stays the same from line to line. *)
Definition keeps s (s2 : rstate W) : Prop :=
  map msg_type (rs_allowed s2) = map msg_type (rs_allowed s) /\
  forall m, rs_slot s = SOwn m -> rs_allowed s = [] -> exists m2, rs_slot s2 = SOwn m2 /\ msg_type m2 = msg_type m.
Lemma keeps_refl s : keeps s s. Proof. split; eauto. Qed.
Lemma keeps_w w s : keeps s (with_w w s). Proof. exact (keeps_refl s). Qed.
Lemma keeps_trans a b d : keeps a b -> keeps b d -> keeps a d.
Proof.
  intros (A1 & A2) (B1 & B2). split; [congruence|]. intros m K1 K2. destruct (A2 m K1 K2) as (m2 & L1 & L2).
  rewrite K2 in A1. destruct (rs_allowed b) eqn:E; [|discriminate A1]. destruct (B2 m2 L1 eq_refl) as (m3 & M1 & M2). exists m3. split; congruence.
Qed.

Lemma run_observing (c : ncfg W) p : observing c -> snd (fst (run_msgs (nc_msg c) p)) = snd p.
Proof.
  unfold observing. intros O. revert p. induction (nc_msg c) as [|h hs IH]; intros p; [reflexivity|]. inversion O as [|? ? O1 O2]; subst. cbn [run_msgs].
  specialize (O1 p). destruct (h p) as [p1 [| |e]]; cbn [fst] in *; [rewrite IH by exact O2|..]; exact O1.
Qed.
Lemma put_same m (s : rstate W) : slot_msg s = Some m -> put_msg m s = s.
Proof.
  unfold slot_msg, put_msg, with_slot. destruct s as [w d st [|m0|i] al]; cbn; [discriminate|intros E; congruence|]. intros E. f_equal.
  revert i E. induction al as [|a al IH]; intros [|i] E; cbn in E |- *; try discriminate; [congruence|]. f_equal. now apply IH.
Qed.

Lemma accept_result (c : ncfg W) orig cmd args s x s2 : observing c -> cmd <> Some [] -> accept_line c orig cmd args s = (x, s2) ->
  keeps s s2 /\
  (x = LReturn None -> exists m, slot_msg s2 = Some m /\ fits cmd m /\ (forall t d, m = MRaw t d -> d = args) /\
    (rs_allowed s <> [] -> exists i, rs_slot s2 = SAllowed i)).
Proof.
  intros OB NE. unfold accept_line. destruct (choose cmd args s) as [e|s1] eqn:C.
  { intros H. injection H as <- <-. split; [apply keeps_refl|discriminate]. }
  apply choose_ok in C; [|exact NE]. destruct C as (C1 & C2 & C3 & C4 & m & C5 & C6 & C7).
  destruct (decode_into c args s1) as [s2' r] eqn:D. pose proof (decode_ok c args s1 m s2' r C5 D) as (m2 & (R1 & (R2 & R3 & R0) & R4 & R5) & Q).
  assert (HK : keeps s s2').
  { split; [congruence|]. intros m0 K1 K2. rewrite K2 in C7. destruct C7 as [[C7 C8]|[C7 C8]].
    - subst s1. rewrite K1 in R5. unfold slot_msg in C7. rewrite K1 in C7. injection C7 as ->. exists m2. destruct R5. split; congruence.
    - unfold slot_msg in C7. rewrite K1 in C7. discriminate. }
  assert (HW : forall w (z : rstate W), keeps s z -> keeps s (with_w w z)) by (intros w z K; exact K).
  assert (HM : forall w, exists m3, slot_msg (with_w w s2') = Some m3 /\ fits cmd m3 /\ (forall t d, m3 = MRaw t d -> d = args) /\ (rs_allowed s <> [] -> exists i, rs_slot (with_w w s2') = SAllowed i)).
  { intros w. exists m2. split; [exact R1|]. destruct C6 as [F1 F2]. split; [split; congruence|]. split.
    - intros t d ->. cbn in R0. destruct m; try discriminate R0. destruct (Q _ _ eq_refl) as [_ Q2]. congruence.
    - intros K. destruct (rs_allowed s); [contradiction|]. destruct C7 as [i C7]. rewrite C7 in R5. exists i. exact R5. }
  destruct r as [e|[[]|e|]].
  - intros H. injection H as <- <-. split; [exact HK|discriminate].
  - rewrite R1. pose proof (run_observing c (rs_w s2', m2) OB) as RO. destruct (run_msgs (nc_msg c) (rs_w s2', m2)) as [[w m'] v]. cbn [fst snd] in RO. subst m'.
    rewrite (put_same m2 s2' R1). destruct v as [| |e]; intros H; injection H as <- <-; (split; [apply HW, HK|]); try discriminate. intros _. apply HM.
  - destruct (nc_unmarshal_err c) as [f|]; [|intros H; injection H as <- <-; split; [exact HK|discriminate]].
    destruct (f (rs_w s2') orig e) as [w [[|] o]]; intros H; injection H as <- <-; (split; [apply HW, HK|]); try discriminate. intros _. apply HM.
  - intros H. injection H as <- <-. split; [exact HK|discriminate].
Qed.

Lemma process_result (c : ncfg W) l s x s2 : observing c -> process_line c l s = (x, s2) ->
  keeps s s2 /\
  (x = LReturn None -> exists m t a, slot_msg s2 = Some m /\ line_for (nc_max_cmd c) l t a /\ msg_type m = t /\ (t = [] -> is_chat m = true) /\
    (forall t d, m = MRaw t d -> d = a) /\ (rs_allowed s <> [] -> exists i, rs_slot s2 = SAllowed i)).
Proof.
  intros OB H. assert (HL : (exists body, l = body ++ B "|") \/ process_line c l s = (LReturn (Some err_no_delim), s)).
  { unfold process_line. destruct l as [|b l'] using rev_ind; [right; reflexivity|]. rewrite last_app.
    destruct (beq b delimiter) eqn:E.
    - left. apply beq_true in E. subst b. now exists l'.
    - right. destruct (l' ++ [b]); reflexivity. }
  destruct HL as [[body ->]|HL]; [|rewrite HL in H; injection H as <- <-; split; [first [apply keeps_refl|apply keeps_w]|discriminate]].
  assert (HN : In x00 body \/ ~ In x00 body) by (destruct (contains_byte x00 body) eqn:E; [left; now apply contains_byte_spec|right; now apply contains_byte_false]).
  destruct HN as [HN|HN].
  { rewrite process_nul in H by exact HN. injection H as <- <-. split; [first [apply keeps_refl|apply keeps_w]|discriminate]. }
  destruct body as [|b0 body0].
  { rewrite process_body in H by exact HN. destruct (nc_keep_alive c) as [f|]; [destruct (f (rs_w s)) as [w [e|]]|]; injection H as <- <-; (split; [first [apply keeps_refl|apply keeps_w]|discriminate]). }
  destruct (parsed_exists (b0 :: body0) ltac:(discriminate)) as (cmd & args & P). rewrite (process_parsed c _ cmd args s HN P) in H.
  destruct (run_raw (nc_raw c) (rs_w s) cmd args) as [w [| |e]]; try (injection H as <- <-; split; [first [apply keeps_refl|apply keeps_w]|discriminate]).
  destruct (name_error c cmd) as [e|] eqn:E; [injection H as <- <-; split; [first [apply keeps_refl|apply keeps_w]|discriminate]|].
  apply name_error_none in E. assert (NE : cmd <> Some []) by (intros ->; destruct E as [E _]; now apply E).
  destruct (accept_result c _ cmd args (with_w w s) x s2 OB NE H) as [A1 A2]. split; [exact A1|]. intros Hx. destruct (A2 Hx) as (m & B1 & [B2 B2'] & B3 & B4).
  exists m, (typ_of cmd), args. split; [exact B1|]. split.
  - exists (b0 :: body0), cmd. split; [reflexivity|]. split; [exact HN|]. split; [exact P|]. destruct cmd; [auto|reflexivity].
  - split; [exact B2|]. split; [|split; [exact B3|exact B4]]. intros K. destruct cmd as [t|]; [|exact B2']. cbn in K. subst t. now contradiction NE.
Qed.

Context {zstate : Type} (act : zstate -> zaction zstate).
Lemma read_to_result (c : ncfg W) : observing c -> forall f g s (r : reader W zstate) x s2 r2, read_to act f g c s r = Some (x, s2, r2) ->
  keeps s s2 /\
  (x = LReturn None -> exists ls l m t a, takes act g r (ls ++ [l]) r2 /\ slot_msg s2 = Some m /\ line_for (nc_max_cmd c) l t a /\ msg_type m = t /\
    (t = [] -> is_chat m = true) /\ (forall t d, m = MRaw t d -> d = a) /\ (rs_allowed s <> [] -> exists i, rs_slot s2 = SAllowed i)).
Proof.
  intros OB. induction f as [|f IH]; intros g s r x s2 r2 H; [discriminate|]. cbn [read_to] in H.
  destruct (read_line act g (rs_w s) r) as [[[[l|p e|] w] r1]|] eqn:E; try discriminate;
    try (injection H as <- <- <-; split; [first [apply keeps_refl|apply keeps_w]|discriminate]).
  destruct (process_line c l (with_w w s)) as [y s1] eqn:P. destruct (process_result c l _ y s1 OB P) as [K1 K2].
  destruct y as [|e|].
  - destruct (IH g s1 r1 x s2 r2 H) as [L1 L2]. split; [eapply keeps_trans; [exact K1|exact L1]|].
    intros Hx. destruct (L2 Hx) as (ls & l' & m & t & a & M1 & M2 & M3 & M4 & M5 & M6 & M7). exists (l :: ls), l', m, t, a.
    split; [eapply ta_cons; eassumption|]. repeat split; auto. intros N. apply M7. intros N2. apply N. destruct K1 as [K1 _]. rewrite N2 in K1. cbn in K1.
    destruct (rs_allowed s); [reflexivity|discriminate].
  - injection H as <- <- <-. split; [exact K1|]. intros Hx. destruct (K2 Hx) as (m & t & a & M2 & M3 & M4 & M5 & M6 & M7).
    exists [], l, m, t, a. split; [eapply ta_cons; [exact E|constructor]|]. repeat split; auto.
  - injection H as <- <- <-. split; [exact K1|discriminate].
Qed.
End Types.

(** Types that are not registered belong to raw messages. *)
Lemma unregistered_raw m : is_registered (msg_type m) = false -> is_raw m = true.
Proof.
  destruct m; intros H; try (vm_compute in H; discriminate); try reflexivity; match goal with k : _ |- _ => destruct k; vm_compute in H; discriminate end.
Qed.
