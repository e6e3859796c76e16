(** Facts about AdcShare.v. *)
From Verif Require Import Base BaseFacts LineReader LineShare SpecShare LineShareFacts LineShareCalls.
From Verif Require Import AdcMessage AdcPacket SpecAdc AdcPacketFacts AdcShare.

Definition suf (d l : bytes) : Prop := exists p, l = p ++ d.
Lemma suf_refl l : suf l l.
Proof. exists []. reflexivity. Qed.
Lemma suf_trans a b c : suf a b -> suf b c -> suf a c.
Proof. intros [p ->] [q ->]. exists (q ++ p). rewrite app_assoc. reflexivity. Qed.
Lemma suf_skipn n l : suf (skipn n l) l.
Proof. exists (firstn n l). symmetry. apply firstn_skipn. Qed.
Lemma suf_tl l : suf (tl l) l.
Proof. destruct l as [|x l]; [apply suf_refl|]. exists [x]. reflexivity. Qed.
Lemma suf_nil l : suf [] l.
Proof. exists l. symmetry. apply app_nil_r. Qed.
Lemma suf_removelast a b : suf a b -> suf (removelast a) (removelast b).
Proof.
  intros [p ->]. destruct a as [|x a]; [apply suf_nil|]. exists p. apply removelast_app. discriminate.
Qed.

Lemma sel_suf : forall fuel sp rest sel x d, sel_loop fuel sp rest sel = Ok (x, d) -> suf d rest.
Proof.
  induction fuel as [|f IH]; intros sp rest sel x d H; cbn [sel_loop] in H.
  - injection H as _ <-. apply suf_nil.
  - destruct rest as [|c t]; [injection H as _ <-; apply suf_nil|].
    destruct (beq c "+" || beq c "-")%bool.
    + destruct (length (c :: t) <? 5)%nat; [destruct (length (c :: t) + sp <? 5)%nat; discriminate|].
      eapply suf_trans; [eapply IH, H|apply suf_skipn].
    + destruct (beq c " "); [eapply suf_trans; [eapply IH, H|exists [c]; reflexivity]|].
      injection H as _ <-. apply suf_refl.
Qed.

Lemma message_raw_inv p t d : message p = ARaw t d -> forall q n x, p = q -> message q = ARaw n x -> x = d.
Proof. intros H q n x -> H2. rewrite H in H2. now injection H2. Qed.

Lemma bind_ok {A C} (x : res A) (k : A -> res C) c : bind x k = Ok c -> exists a, x = Ok a /\ k a = Ok c.
Proof. destruct x; cbn; intros H; try discriminate. eauto. Qed.

Lemma unmarshal_suf sp kind name data p t d : unmarshal_packet sp kind name data = Ok p -> message p = ARaw t d -> suf d (removelast data).
Proof.
  intros H M. unfold unmarshal_packet in H.
  assert (P : forall mk, (forall m, message (mk m) = m) -> plain_unmarshal mk name data = Ok p -> suf d (removelast data)).
  { intros mk Hm E. unfold plain_unmarshal in E. destruct data; [discriminate|]. destruct (ends_line _); [|discriminate].
    injection E as <-. rewrite Hm in M. injection M as _ <-. apply suf_refl. }
  assert (D : forall mk, (forall a b m, message (mk a b m) = m) -> direct_unmarshal mk name data = Ok p -> suf d (removelast data)).
  { intros mk Hm E. unfold direct_unmarshal in E. destruct (length data <? 9)%nat; [discriminate|].
    destruct (negb (ends_line data)); [discriminate|]. destruct (negb (beq (at_ data 4) " ")); [discriminate|].
    match type of E with (if ?c then _ else _) = _ => destruct c; [discriminate|] end.
    apply bind_ok in E as (id & _ & E). apply bind_ok in E as (to & _ & E). injection E as <-. rewrite Hm in M.
    injection M as _ <-. apply suf_skipn. }
  destruct (beq kind "I").
  { unfold info_unmarshal in H. destruct data; [discriminate|]. destruct (ends_line _); [|discriminate].
    injection H as <-. cbn [message] in M. injection M as _ <-. apply suf_refl. }
  destruct (beq kind "H"); [apply (P PHub); auto|].
  destruct (beq kind "E"); [apply (D PEcho); auto|].
  destruct (beq kind "D"); [apply (D PDirect); auto|].
  destruct (beq kind "B").
  { unfold broadcast_unmarshal in H. apply bind_ok in H as (u & _ & H). apply bind_ok in H as (id & _ & H).
    injection H as <-. cbn [message] in M. injection M as _ <-. apply suf_skipn. }
  destruct (beq kind "F").
  { unfold feature_packet_unmarshal in H. apply bind_ok in H as (u & _ & H). apply bind_ok in H as (id & _ & H).
    apply bind_ok in H as ([sel x] & S & H). injection H as <-. cbn [message] in M. injection M as _ <-.
    apply sel_suf in S. eapply suf_trans; [exact S|apply suf_skipn]. }
  destruct (beq kind "C"); [apply (P PClient); auto|].
  destruct (beq kind "U"); [|discriminate].
  unfold udp_unmarshal in H. apply bind_ok in H as (u & _ & H). apply bind_ok in H as (id & _ & H).
  injection H as <-. cbn [message] in M. injection M as _ <-. apply suf_skipn.
Qed.
Lemma decode_suf sp l p t d : decode_packet_raw sp l = Ok p -> message p = ARaw t d -> suf d (removelast l).
Proof.
  intros H M. unfold decode_packet_raw in H.
  destruct (length l <? 5)%nat; [discriminate|]. destruct (contains_byte x00 l); [discriminate|].
  destruct (negb (known_kind (at_ l 0))); [discriminate|]. cbv zeta in H.
  destruct (negb (ends_line (skipn 4 l))); [discriminate|].
  destruct (beq (at_ (skipn 4 l) 0) " ").
  - eapply suf_trans; [eapply unmarshal_suf; eauto|]. apply suf_removelast.
    eapply suf_trans; [apply suf_tl|apply suf_skipn].
  - destruct (negb (beq (at_ (skipn 4 l) 0) x0a)); [discriminate|].
    eapply suf_trans; [eapply unmarshal_suf; eauto|]. apply suf_removelast, suf_skipn.
Qed.

Lemma payload_holds sp m s l p t d : holds m s l -> decode_packet_raw sp l = Ok p -> message p = ARaw t d ->
  holds m (payload_slice s l d) d.
Proof.
  intros H E M. pose proof (decode_suf _ _ _ _ _ E M) as [pre S].
  assert (N : l <> []). { intros ->. discriminate. }
  assert (L : l = removelast l ++ [last l x00]) by (apply app_removelast_last; auto).
  assert (IN : within m s).
  { eapply holds_within; eauto. destruct H as (L0 & _). rewrite <- L0. destruct l; [congruence|simpl; lia]. }
  unfold payload_slice.
  assert (LL : (length l = length pre + length d + 1)%nat).
  { rewrite L, S, !app_length. simpl. lia. }
  replace (length l - 1 - length d)%nat with (length pre) by lia.
  eapply (sub_holds m s l pre d [last l x00]); eauto. rewrite L at 1. rewrite S, <- app_assoc. reflexivity.
Qed.

Section Read.
Context {W zstate : Type} (act : zstate -> zaction zstate) (grow : nat -> nat -> nat).

(** What a call returns comes from the line buffer, and the buffer never shrinks. *)
Lemma packet_from : forall fuel rl w m (R : sreader (W:=W) (zstate:=zstate)) x s w1 m1 R1, fits m (sr_line R) ->
  share_packet act grow fuel rl w m R = Some (x, Some s, w1, m1, R1) ->
  s = sr_line R1 /\ fits m1 s /\ x = decode_packet_raw (length (array m1 (sl_arr s)) - sl_len s) (view m1 s) /\
  (length (array m (sl_arr (sr_line R))) <= length (array m1 (sl_arr s)))%nat.
Proof.
  induction fuel as [|f IH]; intros rl w m R x s w1 m1 R1 F H; cbn [share_packet] in H; [discriminate|].
  destruct (share_read_line act grow rl w m R) as [[[[o w2] m2] R2]|] eqn:E; [|discriminate].
  destruct (read_frame act grow _ _ _ _ _ _ _ _ F E) as (F2 & FR).
  destruct o as [s2|p e|]; [|discriminate|discriminate].
  assert (S : s2 = sr_line R2).
  { pose proof (read_agrees act grow _ R (as_hook_stands (sr_hooks R)) m _ rl w [] (fits_buffer _ _ F)) as G.
    rewrite E in G. destruct (read_line act rl (w, []) _) as [[[lo [w3 x3]] P1]|]; [|contradiction].
    destruct G as (_ & _ & _ & _ & _ & _ & G). apply G. reflexivity. }
  destruct (negb (ends_line (view m2 s2))); [discriminate|].
  destruct (1 <? sl_len s2)%nat.
  - inversion H; subst. split; [reflexivity|]. split; [exact F2|]. split.
    + unfold spare_of. destruct F2 as (_ & O & _). rewrite O. reflexivity.
    + apply FR.
  - destruct (IH _ _ _ _ _ _ _ _ _ F2 H) as (A & B & C & D). split; [exact A|]. split; [exact B|]. split; [exact C|].
    destruct FR as (_ & _ & _ & _ & FR). lia.
Qed.
End Read.
