(** Proofs for property C142: the ADC reader with message types of a program. *)
From Verif Require Import Base BaseFacts LineReader SpecLine LineReaderFacts LineReaderStream LineReaderOps LineTransport NmdcReaderFacts NmdcEndToEnd.
From Verif Require Import AdcText AdcValue AdcMessage AdcPacket SpecAdc SpecAdcMessage AdcPacketFacts AdcMessageFacts SpecAdcRead AdcReadFacts AdcReadPackets
  AdcReader SpecAdcReader AdcEndToEnd SpecAdcStream AdcStreamFacts Registry AdcForeign SpecAdcForeign.
From Coq Require Import Lia.

Section Facts.
Context {W V Z : Type} (act : Z -> zaction Z).
Variable decode : gotype V -> bytes -> V -> fenv W V -> fenv W V * res V.
Notation env := (fenv W V).

Lemma find_entry r name t : find_type r name = Some t <-> entry (V:=V) r name t.
Proof.
  unfold entry. split.
  - induction r as [|[n u] r IH]; cbn [find_type]; [discriminate|]. destruct (bytes_eqb n name) eqn:E.
    + intros [= ->]. apply bytes_eqb_true in E. subst n. exists [], r. split; [reflexivity|constructor].
    + intros H. destruct (IH H) as (a & b & -> & F). exists ((n, u) :: a), b. split; [reflexivity|]. constructor; [now apply bytes_eqb_false|exact F].
  - intros (a & b & -> & F). induction F as [|[n u] a H F IH]; cbn [app find_type fst] in *.
    + now rewrite (proj2 (bytes_eqb_true _ _) eq_refl).
    + now rewrite (proj2 (bytes_eqb_false _ _) H).
Qed.
Lemma find_no_entry r name : find_type r name = None <-> no_entry (V:=V) r name.
Proof.
  unfold no_entry. split.
  - induction r as [|[n u] r IH]; cbn [find_type]; [constructor|]. destruct (bytes_eqb n name) eqn:E; [discriminate|]. intros H. constructor; [now apply bytes_eqb_false|auto].
  - induction 1 as [|[n u] r H F IH]; cbn [find_type fst] in *; [reflexivity|]. now rewrite (proj2 (bytes_eqb_false _ _) H).
Qed.

Lemma f_receive_says name d s s' x : f_receive decode name d s = (s', x) <-> received decode name d s s' x.
Proof.
  unfold f_receive. split.
  - destruct (find_type (snd s) name) as [t|] eqn:F.
    + apply find_entry in F. destruct (decode t d (go_zero t) s) as [s1 [v|e|]] eqn:D; intros [= <- <-].
      * destruct (go_pointer t) eqn:P; [eapply rc_pointer; eassumption|eapply rc_value; eassumption].
      * eapply rc_error; eassumption.
      * eapply rc_panic; eassumption.
    + intros [= <- <-]. apply find_no_entry in F. now constructor.
  - intros H. destruct H as [N|t s' v F D P|t s' v F D P|t s' e F D|t s' F D]; [apply find_no_entry in N; now rewrite N|..]; apply find_entry in F; rewrite F, D, ?P; reflexivity.
Qed.

Lemma f_decode_says p name d s s' x : raw p name d -> f_decode decode (mkFp p None) s = (s', x) ->
  exists y, received decode name d s s' y /\ x = packet_with p y.
Proof.
  intros M H. unfold raw in M. unfold f_decode in H. cbn [fp_msg fp_packet] in H. rewrite M in H. destruct (f_receive decode name d s) as [s1 y] eqn:E.
  apply f_receive_says in E. exists y. destruct y as [m|e|]; injection H as <- <-; auto.
Qed.
Lemma f_message_says name d s s' a : f_message decode name d s = (s', a) -> exists y, received decode name d s s' y /\ a = FAMessage (message_with name d y).
Proof.
  unfold f_message. destruct (f_receive decode name d s) as [s1 y] eqn:E. apply f_receive_says in E. intros H. exists y.
  destruct y as [[m|]|e|]; injection H as <- <-; auto.
Qed.

Lemma f_answer_says c l s s' a : reads c -> f_answer decode c l s = (s', a) -> answered decode c l s s' a.
Proof.
  intros RD H. assert (BAD : forall x : res packet, decode_packet_raw (behind c) l = x -> (forall p, x <> Ok p) -> (s', a) = (s, f_failed c x) -> answered decode c l s s' a).
  { intros x E N [= -> ->]. pose proof (raw_means (behind c) l) as M. rewrite E in M. destruct x as [p|e|]; [now elim (N p)|..]; cbn [result_means] in M.
    - destruct M as [M1 M2]. replace (f_failed c (Err e)) with (refuses c e) by now destruct c. now apply an_wrong.
    - replace (f_failed c (@Panic packet)) with (crashes c) by now destruct c. now apply an_crash. }
  destruct c as [sp|sp|sp|sp|t v]; cbn [f_answer behind] in *; [| | | |contradiction];
    destruct (decode_packet_raw sp l) as [p|e|] eqn:E; try (now apply (BAD _ eq_refl); [discriminate|symmetry]);
    clear BAD; apply (packet_iff sp) in E; destruct (raw_message l p E) as (name & d & M).
  - destruct (f_decode decode (mkFp p None) s) as [s1 x] eqn:D. injection H as <- <-. destruct (f_decode_says p name d s s1 x M D) as (y & Y & ->).
    eapply an_packet; eauto.
  - injection H as <- <-. eapply an_raw; eauto.
  - unfold raw in M. destruct p; cbn [message] in M; subst; try (injection H as <- <-; eapply an_no_info; [reflexivity|eassumption|discriminate]).
    destruct (f_message_says _ _ _ _ _ H) as (y & Y & ->). eapply an_info; eauto.
  - unfold raw in M. destruct p; cbn [message] in M; subst; try (injection H as <- <-; eapply an_no_client; [reflexivity|eassumption|discriminate]).
    destruct (f_message_says _ _ _ _ _ H) as (y & Y & ->). eapply an_client; eauto.
Qed.

Lemma next_says (keep : option (env -> env * option error)) : forall f g (s : env) (r : reader env Z) x (s' : env) r', next_packet act f g keep s r = Some (x, s', r') -> awaited (W:=W) (V:=V) act keep s r x s' r'.
Proof.
  induction f as [|f IH]; intros g s r x s' r' H; [discriminate|]. cbn [next_packet] in H.
  destruct (read_line act g s r) as [[[o s1] r1]|] eqn:L; [|discriminate]. assert (LR : line_read (W:=W) (V:=V) act s r o s1 r1) by now exists g.
  destruct o as [l|o e|]; [|injection H as <- <- <-; eapply aw_error; eassumption|injection H as <- <- <-; now apply aw_panic].
  destruct (ends_line l) eqn:E; cbn [negb] in H.
  - assert (exists b, l = b ++ [x0a]) as (b & ->).
    { unfold ends_line in E. destruct l as [|y l] using rev_ind; [discriminate|]. rewrite last_last in E. assert (y = x0a) as -> by (revert E; destruct (l ++ [y]); [discriminate|apply beq_true]). eauto. }
    destruct (Nat.ltb_spec 1 (length (b ++ [x0a]))) as [K|K].
    + injection H as <- <- <-. apply aw_line; [exact LR|]. intros ->. cbn in K. lia.
    + assert (b = []) as -> by (rewrite app_length in K; cbn in K; destruct b; [reflexivity|cbn in K; lia]). cbn [app] in LR.
      destruct keep as [k|].
      * destruct (k s1) as [s2 [e|]] eqn:Ks.
        -- injection H as <- <- <-. eapply aw_stop; [exact LR|exact Ks].
        -- eapply aw_alive; [exact LR|exact Ks|]. now apply (IH g).
      * eapply aw_alive; [exact LR|reflexivity|]. now apply (IH g).
  - injection H as <- <- <-. eapply aw_open; [exact LR|]. intros b ->. rewrite ends_line_snoc in E. discriminate.
Qed.

Lemma f_calls_says : forall f cs (s : env) (R : areader env Z) os (s' : env) R', f_calls act decode f cs s R = Some (os, s', R') ->
  exists h, serves decode (awaited (W:=W) (V:=V) act (ar_keep R)) s (ar_line R) h s' (ar_line R') /\ map fst h = cs /\ map snd h = os /\ ar_keep R' = ar_keep R.
Proof.
  intros f. induction cs as [|c cs IH]; intros s R os s' R' H; cbn [f_calls] in H.
  - injection H as <- <- <-. exists []. repeat split. constructor.
  - destruct (f_call act decode f c s R) as [[[a s1] R1]|] eqn:C; [|discriminate]. destruct (f_calls act decode f cs s1 R1) as [[[os2 s2] R2]|] eqn:D; [|discriminate].
    injection H as <- <- <-. destruct (IH _ _ _ _ _ D) as (h & SV & F & G & K).
    assert (RC : reads c -> ar_keep R1 = ar_keep R /\ serves decode (awaited (W:=W) (V:=V) act (ar_keep R)) s (ar_line R) ((c, a) :: h) s2 (ar_line R2)).
    { intros RD. assert (C' : match next_packet act f f (ar_keep R) s (ar_line R) with
         | None => None
         | Some (Ok l, s1, r1) => let '(s2, a) := f_answer decode c l s1 in Some (a, s2, mkAreader r1 (ar_keep R))
         | Some (x, s1, r1) => Some (f_failed c x, s1, mkAreader r1 (ar_keep R))
         end = Some (a, s1, R1)) by (destruct c; [exact C..|contradiction]). clear C.
      destruct (next_packet act f f (ar_keep R) s (ar_line R)) as [[[x s0] r0]|] eqn:N; [|discriminate]. apply next_says in N.
      destruct x as [l|e|].
      - destruct (f_answer decode c l s0) as [s3 a3] eqn:E. injection C' as <- <- <-. cbn [ar_keep ar_line] in *. split; [reflexivity|].
        eapply sv_line; [exact RD|exact N|eapply f_answer_says; [exact RD|exact E]|exact SV].
      - injection C' as <- <- <-. cbn [ar_keep ar_line] in *. split; [reflexivity|]. replace (f_failed c (Err e)) with (refuses c e) by now destruct c.
        eapply sv_fail; eassumption.
      - injection C' as <- <- <-. cbn [ar_keep ar_line] in *. split; [reflexivity|]. replace (f_failed c (@Panic bytes)) with (crashes c) by now destruct c.
        eapply sv_panic; eassumption. }
    destruct c as [sp|sp|sp|sp|t v]; try (destruct RC as [K1 RC]; [exact Logic.I|]; eexists; split; [exact RC|]; cbn [map fst snd]; rewrite F, G, K; auto; fail).
    clear RC. cbn [f_call] in C. unfold f_register, register in C. destruct s as [w m]. cbn [fst snd] in C.
    destruct (find_type m (go_name t v)) as [u|] eqn:E; injection C as <- <- <-; cbn [fst snd map].
    + exists ((FRegister t v, FADone true) :: h). cbn [map fst snd]. rewrite F, G. split; [|auto]. apply sv_known; [|exact SV]. rewrite <- find_no_entry. congruence.
    + exists ((FRegister t v, FADone false) :: h). cbn [map fst snd]. rewrite F, G. split; [|auto]. apply sv_new; [|exact SV]. now apply find_no_entry.
Qed.

(** ** On streams *)
Lemma skim_gets (keep : option (env -> env * option error)) : forall ls (s : env), Forall (is_line x0a) ls -> gets (W:=W) (V:=V) keep s ls (fst (fst (skim keep ls s))) (snd (fst (skim keep ls s))) (snd (skim keep ls s)).
Proof.
  induction ls as [|l ls IH]; intros s F; cbn [skim]; [constructor|]. inversion F as [|? ? L F']; subst.
  destruct (keep_alive_line l) eqn:K.
  - assert (l = [x0a]) as ->.
    { destruct L as (q & -> & _). destruct q as [|y [|z q]]; [reflexivity|discriminate|discriminate]. }
    destruct keep as [k|].
    + destruct (k s) as [s2 [e|]] eqn:E; cbn [fst snd]; [now apply ge_stop|]. eapply ge_alive; [exact E|now apply IH].
    + eapply ge_alive; [reflexivity|now apply IH].
  - cbn [fst snd]. constructor. intros ->. discriminate.
Qed.

Lemma f_calls_stream (keep : option (env -> env * option error)) : forall cs ls (s : env) (r : reader env Z), supplies act r ls -> Forall (is_line x0a) ls ->
  exists h s' ls' R', eventually (fun f => f_calls act decode f cs s (mkAreader r keep) = Some (map snd h, s', R')) /\
    map fst h = cs /\ serves decode (gets (W:=W) (V:=V) keep) s ls h s' ls' /\ ar_keep R' = keep.
Proof.
  induction cs as [|c cs IH]; intros ls s r H L.
  - exists [], s, ls, (mkAreader r keep). split; [exists 0; reflexivity|]. repeat split. constructor.
  - assert (CONS : forall a s1 r1 (h : list (fcall V * fanswer V)) s' R', eventually (fun f => f_call act decode f c s (mkAreader r keep) = Some (a, s1, mkAreader r1 keep)) ->
      eventually (fun f => f_calls act decode f cs s1 (mkAreader r1 keep) = Some (map snd h, s', R')) ->
      eventually (fun f => f_calls act decode f (c :: cs) s (mkAreader r keep) = Some (map snd ((c, a) :: h), s', R'))).
    { intros a s1 r1 h s' R' E1 E2. eapply eventually_mono; [|exact (eventually_and _ _ E1 E2)]. intros f [F1 F2]. cbn [f_calls map snd]. now rewrite F1, F2. }
    assert (RC : reads c -> exists a s1 s2 r1 ls1 x, eventually (fun f => f_call act decode f c s (mkAreader r keep) = Some (a, s2, mkAreader r1 keep)) /\
       supplies act r1 ls1 /\ Forall (is_line x0a) ls1 /\ gets (W:=W) (V:=V) keep s ls x s1 ls1 /\
       match x with Ok l => answered decode c l s1 s2 a | Err e => s2 = s1 /\ a = refuses c e | Panic => s2 = s1 /\ a = crashes c end).
    { intros RD. destruct (supplies_next act (fun _ => FErr) keep ls s r H L) as (r1 & f0 & S1 & L1 & N). pose proof (skim_gets keep ls s L) as G.
      destruct (skim keep ls s) as [[x s1] ls1]. cbn [fst snd] in *.
      assert (FC : forall f, f0 <= f -> f_call act decode f c s (mkAreader r keep) =
        match x with Ok l => let '(s2, a) := f_answer decode c l s1 in Some (a, s2, mkAreader r1 keep) | x => Some (f_failed c x, s1, mkAreader r1 keep) end).
      { intros f Lf. destruct c; [| | | |contradiction]; cbn [f_call ar_keep ar_line]; rewrite (N f f Lf Lf); destruct x; reflexivity. }
      destruct x as [l|e|].
      - destruct (f_answer decode c l s1) as [s2 a] eqn:E. exists a, s1, s2, r1, ls1, (Ok l). repeat (split; [first [exact S1|exact L1|exact G|now exists f0]|]). now apply f_answer_says.
      - exists (f_failed c (@Err bytes e)), s1, s1, r1, ls1, (Err e). repeat (split; [first [exact S1|exact L1|exact G|now exists f0]|]). split; [reflexivity|now destruct c].
      - exists (f_failed c (@Panic bytes)), s1, s1, r1, ls1, Panic. repeat (split; [first [exact S1|exact L1|exact G|now exists f0]|]). split; [reflexivity|now destruct c]. }
    assert (ALL : reads c -> exists h s' ls' R', eventually (fun f => f_calls act decode f (c :: cs) s (mkAreader r keep) = Some (map snd h, s', R')) /\
      map fst h = c :: cs /\ serves decode (gets (W:=W) (V:=V) keep) s ls h s' ls' /\ ar_keep R' = keep).
    { intros RD. destruct (RC RD) as (a & s1 & s2 & r1 & ls1 & x & E & S1 & L1 & G & X). destruct (IH ls1 s2 r1 S1 L1) as (h & s' & ls' & R' & E2 & F & SV & K).
      exists ((c, a) :: h), s', ls', R'. split; [now apply (CONS a s2 r1)|]. split; [cbn; now rewrite F|]. split; [|exact K].
      destruct x as [l|e|]; [eapply sv_line; eassumption|destruct X as [-> ->]; eapply sv_fail; eassumption|destruct X as [-> ->]; eapply sv_panic; eassumption]. }
    destruct c as [sp|sp|sp|sp|t v]; try (apply ALL; exact Logic.I). clear RC ALL. destruct s as [w m].
    destruct (find_type m (go_name t v)) as [u|] eqn:E.
    + destruct (IH ls (w, m) r H L) as (h & s' & ls' & R' & E2 & F & SV & K). exists ((FRegister t v, FADone true) :: h), s', ls', R'.
      split; [apply (CONS (FADone true) (w, m) r); [exists 0; intros f _; cbn [f_call]; unfold f_register, register; cbn [fst snd]; now rewrite E|exact E2]|].
      split; [cbn; now rewrite F|]. split; [|exact K]. apply sv_known; [|exact SV]. rewrite <- find_no_entry. congruence.
    + destruct (IH ls (w, m ++ [(go_name t v, t)]) r H L) as (h & s' & ls' & R' & E2 & F & SV & K). exists ((FRegister t v, FADone false) :: h), s', ls', R'.
      split; [apply (CONS (FADone false) (w, m ++ [(go_name t v, t)]) r); [exists 0; intros f _; cbn [f_call]; unfold f_register, register; cbn [fst snd]; now rewrite E|exact E2]|].
      split; [cbn; now rewrite F|]. split; [|exact K]. apply sv_new; [|exact SV]. now apply find_no_entry.
Qed.

(** ** The answers are determined *)
Lemma received_unique name d s s1 x s2 y : received decode name d s s1 x -> received decode name d s s2 y -> s1 = s2 /\ x = y.
Proof. intros H K. apply f_receive_says in H, K. split; congruence. Qed.
Lemma answered_unique c l s s1 a s2 b : answered decode c l s s1 a -> answered decode c l s s2 b -> s1 = s2 /\ alike a b.
Proof.
  assert (RR : forall p n d n' d', raw p n d -> raw p n' d' -> n = n' /\ d = d') by (unfold raw; intros; split; congruence).
  intros H K. destruct H; inversion K; subst; try discriminate;
    repeat match goal with
    | E : FPacket _ = FPacket _ |- _ => injection E as E; subst
    | E : FPacketRaw _ = FPacketRaw _ |- _ => injection E as E; subst
    | E : FInfo _ = FInfo _ |- _ => injection E as E; subst
    | E : FClient _ = FClient _ |- _ => injection E as E; subst
    | P : packet_read l ?p, Q : packet_read l ?q |- _ => lazymatch p with q => fail | _ => let X := fresh in pose proof (packet_read_unique l p q P Q) as X; try discriminate X; try (injection X as ? ?); subst end
    | P : packet_read l ?p, Q : packet_read l ?p |- _ => clear Q
    end;
    try (exfalso; eauto using cut_not_read; fail);
    try (match goal with P : packet_read l _, N : forall p, ~ packet_read l p |- _ => now apply N in P end);
    try (match goal with N : forall m, ?p <> _ |- _ => now elim (N _ eq_refl) end);
    try (match goal with A : raw ?p _ _, B : raw ?p _ _ |- _ => destruct (RR _ _ _ _ _ A B); subst end);
    try (match goal with A : received _ ?n ?d ?s _ _, B : received _ ?n ?d ?s _ _ |- _ => destruct (received_unique _ _ _ _ _ _ _ A B); subst end).
  all: try (split; [reflexivity|]).
  all: try (destruct c; cbn; (reflexivity || exact Logic.I || contradiction)).
  all: try reflexivity.
  all: try match goal with |- alike (FAPacket (packet_with _ ?x)) _ => now destruct x end.
  all: try match goal with |- alike (FAMessage (message_with _ _ ?x)) _ => now destruct x as [[|]| |] end.
Qed.

Lemma gets_unique (keep : option (env -> env * option error)) (s : env) ls o s1 ls1 : gets (W:=W) (V:=V) keep s ls o s1 ls1 ->
  forall o2 s2 ls2, gets (W:=W) (V:=V) keep s ls o2 s2 ls2 -> o = o2 /\ s1 = s2 /\ ls1 = ls2.
Proof.
  induction 1 as [s|s l ls N|s ls s1 o s2 ls2 K G IH|s ls s1 e K]; intros o' s' ls' H; inversion H; subst; try congruence; auto; try (split; [congruence|split; congruence]).
  match goal with K2 : on_keep keep s = (?a, None) |- _ => assert (a = s1) as -> by congruence end. now apply IH.
Qed.
Lemma serves_unique {R : Type} (line : env -> R -> res bytes -> env -> R -> Prop) :
  (forall s r o s1 r1 o2 s2 r2, line s r o s1 r1 -> line s r o2 s2 r2 -> o = o2 /\ s1 = s2 /\ r1 = r2) ->
  forall s r h s1 r1, serves decode line s r h s1 r1 -> forall h2 s2 r2, serves decode line s r h2 s2 r2 -> map fst h = map fst h2 ->
  Forall2 alike (map snd h) (map snd h2) /\ s1 = s2 /\ r1 = r2.
Proof.
  intros U. assert (AE : forall (c : fcall V) e, alike (refuses c e) (refuses c e)) by (intros [] ?; exact Logic.I).
  assert (AC : forall c : fcall V, alike (crashes c) (crashes c)) by (intros []; exact Logic.I).
  induction 1 as [s r|w m r t v h s' r' N S IH|w m r t v h s' r' N S IH|s r c l s1 r1 a s2 h s' r' RD L A S IH|s r c e s1 r1 h s' r' RD L S IH|s r c s1 r1 h s' r' RD L S IH];
    intros h2 s3 r3 K M; inversion K; subst; cbn [map fst snd] in *; try discriminate M; auto;
    assert (M1 := f_equal (hd_error (A:=_)) M); assert (M2 := f_equal (tl (A:=_)) M); cbn [hd_error tl] in M1, M2; clear M;
    try (match type of M1 with Some ?x = Some ?y => assert (M3 : x = y) by congruence; clear M1 end);
    try discriminate M3; try (now subst; contradiction);
    try (injection M3 as <- <-); try contradiction; try subst;
    try (match goal with L2 : line _ _ _ _ _ |- _ => lazymatch L2 with L => fail | _ => destruct (U _ _ _ _ _ _ _ _ L L2) as (X & -> & ->); try discriminate X; try (injection X as ->) end end);
    try (match goal with A2 : answered _ _ _ _ _ _ |- _ => lazymatch A2 with A => fail | _ => destruct (answered_unique _ _ _ _ _ _ _ A A2) as [-> AL] end end);
    match goal with S2 : serves _ _ _ _ ?x _ _, E : map fst _ = map fst ?x |- _ => destruct (IH _ _ _ S2 E) as (F & -> & ->) end;
    repeat split; constructor; (reflexivity || assumption || apply AE || apply AC).
Qed.

Lemma raw_answer sp l s s' p : answered decode (FPacketRaw sp) l s s' (FAPacket (Ok p)) -> s' = s /\ exists q, p = mkFp q None /\ packet_read l q.
Proof.
  intros A. remember (FPacketRaw sp) as c eqn:C. remember (FAPacket (Ok p)) as a eqn:E. destruct A; subst; try discriminate.
  injection E as <-. eauto.
Qed.
Lemma packet_answer sp l s s' p : answered decode (FPacket sp) l s s' (FAPacket (Ok p)) ->
  exists q name d m, p = mkFp q m /\ packet_read l q /\ raw q name d /\ received decode name d s s' (Ok m).
Proof.
  intros A. remember (FPacket sp) as c eqn:C. remember (FAPacket (Ok p)) as a eqn:E. destruct A as [| | |sp' q name d s' x Q R M Y| | | |]; subst; try discriminate.
  destruct x as [m|e|]; try discriminate. injection E as <-. exists q, name, d, m. auto.
Qed.
End Facts.
