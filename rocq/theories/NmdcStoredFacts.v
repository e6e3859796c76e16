(** Proofs about callbacks that use SetDecoder. *)
From Verif Require Import Base BaseFacts Utf8 NmdcText NmdcMessage NmdcChat SpecFrame SpecReuse NmdcReuseFacts LineReader SpecLine LineReaderStream NmdcReader SpecReader NmdcReaderFacts SpecCalls NmdcCallFacts NmdcStored SpecStored.
From Coq Require Import Lia.

Lemma storing_given {U} (c : ncfg (U * codec)) : stores_given c (storing c).
Proof.
  split; cbn; try reflexivity; [destruct (nc_unknown c); split; discriminate || reflexivity|].
  intros f f' w text u d x E1 E2 E3. rewrite E1 in E2. injection E2 as <-. unfold store_unknown. rewrite E3. destruct x as [[d'|]|]; reflexivity.
Qed.
Lemma storing_typed {U} (c : ncfg (U * codec)) : typed c -> typed (storing c).
Proof. intros H. exact H. Qed.

Theorem stored_say {U Z} (act : Z -> zaction Z) (c : ncfg (U * codec)) : typed c -> forall ks ls u dec r, Forall (is_line "|"%byte) ls -> supplies act r ls -> Forall call_sized ks ->
  exists os u2 dec2 R2, stored_on c u dec ls ks os u2 dec2 /\ eventually (fun f => stored_calls act f ks u (mkNreader r dec c) = Some (os, u2, R2)) /\ nr_dec R2 = dec2.
Proof.
  intros TY. induction ks as [|k ks IH]; intros ls u dec r HL HS SZ.
  - exists [], u, dec, (mkNreader r dec c). split; [constructor|]. split; [exists 0; reflexivity|reflexivity].
  - inversion SZ as [|? ? S1 S2]; subst. assert (D : k = CAny [] \/ k <> CAny []) by (destruct k as [| |[|]]; auto; right; discriminate). destruct D as [->|N].
    + destruct (IH ls u dec r HL HS S2) as (os & u2 & dec2 & R2 & C2 & E2 & F2). exists (RAny Panic [] :: os), u2, dec2, R2. split; [now constructor|]. split; [|exact F2].
      eapply eventually_mono; [|exact E2]. intros f E. cbn [stored_calls]. unfold stored_call. cbn [do_call read_msg_any nr_line nr_dec nr_cfg]. now rewrite E.
    + destruct (call_says act (storing c) (storing_typed c TY) k ls (u, dec) dec r HL HS S1 N) as (v & s & ls' & o & r' & OC & AN & HL' & HS' & E1).
      destruct (al_w s) as [u1 d1] eqn:W. destruct (IH ls' u1 d1 r' HL' HS' S2) as (os & u2 & dec2 & R2 & C2 & E2 & F2).
      exists (o :: os), u2, dec2, R2. split; [apply (so_call c (storing c) u dec ls k v s u1 d1 ls'); auto using storing_given|]. split; [|exact F2].
      eapply eventually_mono; [|exact (eventually_and _ _ E1 E2)]. intros f [K1 K2]. cbn [stored_calls]. unfold stored_call. cbn [nr_line nr_dec nr_cfg]. rewrite K1. cbn [nr_line]. now rewrite K2.
Qed.

(** ** The call in progress *)
Section Mirror.
Context {U : Type} (c : ncfg (U * codec)) (c0 : ncfg U).
Hypothesis MI : mirrors c c0.

(** The same but for what is stored. *)
Definition same (s : rstate (U * codec)) (s0 : rstate U) : Prop :=
  fst (rs_w s) = rs_w s0 /\ rs_dec s = rs_dec s0 /\ rs_set s = rs_set s0 /\ rs_slot s = rs_slot s0 /\ rs_allowed s = rs_allowed s0.
(** The store has what is kept. *)
Definition kept_too (s : rstate (U * codec)) : Prop := stores_nothing c -> snd (rs_w s) = rs_set s.
(** Both. *)
Definition alike s s0 : Prop := same s s0 /\ kept_too s.

Lemma alike_w w w0 s s0 : fst w = w0 -> (stores_nothing c -> snd w = snd (rs_w s)) -> alike s s0 -> alike (with_w w s) (with_w w0 s0).
Proof. intros E F [(A & B & C & D & G) K]. split; [repeat split; auto|]. intros Q. cbn. rewrite F by exact Q. now apply K. Qed.
Lemma alike_put m s s0 : alike s s0 -> alike (put_msg m s) (put_msg m s0).
Proof.
  intros [(A & B & C & D & G) K]. unfold put_msg. rewrite D, <- G. destruct (rs_slot s0) eqn:E; (split; [repeat split; cbn; auto|intros Q; exact (K Q)]).
Qed.
Lemma alike_slot o s s0 : alike s s0 -> alike (with_slot o s) (with_slot o s0).
Proof. intros [(A & B & C & D & G) K]. split; [repeat split; cbn; auto|exact K]. Qed.
Lemma alike_msg s s0 : alike s s0 -> slot_msg s = slot_msg s0.
Proof. intros [(A & B & C & D & G) K]. unfold slot_msg. now rewrite D, G. Qed.

Lemma mirror_choose cmd a s s0 : alike s s0 ->
  match choose cmd a s, choose cmd a s0 with inl e, inl e0 => e = e0 | inr t, inr t0 => alike t t0 | _, _ => False end.
Proof.
  intros H. pose proof H as [(A & B & C & D & G) K]. unfold choose. rewrite G. cbv zeta.
  assert (ONE : forall t t0, alike t t0 ->
    match (match slot_msg t, cmd with
           | None, Some x => inr (with_slot (SOwn (new_message x)) t)
           | None, None => inr (with_slot (SOwn (MChat chat0)) t)
           | Some m, Some x => if is_chat m then inl (EUnexpectedCmd [] (match cmd with Some t => t | None => [] end) a)
               else if bytes_eqb (msg_type m) x then inr t else inl (EUnexpectedCmd (msg_type m) (match cmd with Some t => t | None => [] end) a)
           | Some m, None => if is_chat m then inr t else inl (EUnexpectedCmd (msg_type m) (match cmd with Some t => t | None => [] end) a) end),
          (match slot_msg t0, cmd with
           | None, Some x => inr (with_slot (SOwn (new_message x)) t0)
           | None, None => inr (with_slot (SOwn (MChat chat0)) t0)
           | Some m, Some x => if is_chat m then inl (EUnexpectedCmd [] (match cmd with Some t => t | None => [] end) a)
               else if bytes_eqb (msg_type m) x then inr t0 else inl (EUnexpectedCmd (msg_type m) (match cmd with Some t => t | None => [] end) a)
           | Some m, None => if is_chat m then inr t0 else inl (EUnexpectedCmd (msg_type m) (match cmd with Some t => t | None => [] end) a) end)
    with inl e, inl e0 => e = e0 | inr t, inr t0 => alike t t0 | _, _ => False end).
  { intros t t0 T. rewrite (alike_msg t t0 T). destruct (slot_msg t0) as [m|], cmd as [x|]; try (now apply alike_slot); destruct (is_chat m); auto. destruct (bytes_eqb _ _); auto. }
  destruct (rs_allowed s0) as [|m0 ms]; [now apply ONE|]. destruct (first_index _ _) as [i|]; [|reflexivity]. apply ONE. now apply alike_slot.
Qed.

Lemma mirror_decode a s s0 : alike s s0 -> alike (fst (decode_into (storing c) a s)) (fst (decode_into c0 a s0)) /\ snd (decode_into (storing c) a s) = snd (decode_into c0 a s0).
Proof.
  intros H. unfold decode_into. rewrite (alike_msg s s0 H). destruct (slot_msg s0) as [m|]; [|now split]. pose proof H as [(_ & B & _) _]. rewrite B.
  destruct (msg_unmarshal (rs_dec s0) m a) as [m1 r1]. cbv zeta. pose proof (alike_put m1 s s0 H) as H1. set (t := put_msg m1 s) in *. set (t0 := put_msg m1 s0) in *. clearbody t t0.
  pose proof (mi_unknown c c0 MI) as M. cbn [storing nc_unknown]. destruct (nc_unknown c) as [f|] eqn:F, (nc_unknown c0) as [f0|]; try contradiction; cbn [option_map]; [|now split].
  destruct r1 as [|[]|]; try (now split). pose proof H1 as [(A1 & A2 & A3 & A4 & A5) K1]. specialize (M (rs_w t) text). rewrite A1 in M. rewrite M.
  assert (SN : stores_nothing c -> snd (fst (f (rs_w t) text)) = snd (rs_w t)) by (intros Q; exact (sn_unknown c Q f (rs_w t) text F)).
  unfold store_unknown. destruct (f (rs_w t) text) as [[u d] [[given|]|e]]; cbn [fst snd] in SN |- *.
  - destruct (msg_unmarshal (Some given) m1 a) as [m2 r2]. cbn [fst snd]. split; [|reflexivity]. apply alike_put. split; [repeat split; cbn; auto|intros _; reflexivity].
  - destruct (msg_unmarshal None m1 (to_valid a)) as [m2 r2]. cbn [fst snd]. split; [|reflexivity]. apply alike_put. split; [repeat split; cbn; auto|].
    intros Q. cbn. rewrite (SN Q). exact (K1 Q).
  - split; [|reflexivity]. now apply alike_w.
Qed.

Lemma mirror_msgs : forall hs hs0, Forall2 (fun h h0 => forall w m, h0 (fst w, m) = ((fst (fst (fst (h (w, m)))), snd (fst (h (w, m)))), snd (h (w, m)))) hs hs0 ->
  forall (w : U * codec) m, run_msgs hs0 (fst w, m) = ((fst (fst (fst (run_msgs hs (w, m)))), snd (fst (run_msgs hs (w, m)))), snd (run_msgs hs (w, m))).
Proof.
  induction 1 as [|h h0 hs hs0 H _ IH]; intros w m; [reflexivity|]. cbn [run_msgs]. rewrite H. destruct (h (w, m)) as [[w1 m1] [| |e]]; cbn [fst snd]; [apply IH|reflexivity..].
Qed.
Lemma kept_msgs : forall hs, (forall h (w : U * codec) m, In h hs -> snd (fst (fst (h (w, m)))) = snd w) -> forall w m, snd (fst (fst (run_msgs hs (w, m)))) = snd w.
Proof.
  induction hs as [|h hs IH]; intros H w m; [reflexivity|]. cbn [run_msgs]. pose proof (H h w m (or_introl eq_refl)) as E. destruct (h (w, m)) as [[w1 m1] [| |e]]; cbn [fst snd] in E |- *; auto.
  rewrite IH; [exact E|]. intros h' w' m' I. apply H. now right.
Qed.
Lemma mirror_raw cmd a : forall hs hs0, Forall2 (fun h h0 => forall w cmd a, h0 (fst w) cmd a = (fst (fst (h w cmd a)), snd (h w cmd a))) hs hs0 ->
  forall (w : U * codec), run_raw hs0 (fst w) cmd a = (fst (fst (run_raw hs w cmd a)), snd (run_raw hs w cmd a)).
Proof.
  induction 1 as [|h h0 hs hs0 H _ IH]; intros w; [reflexivity|]. cbn [run_raw]. rewrite H. destruct (h w cmd a) as [w1 [| |e]]; cbn [fst snd]; [apply IH|reflexivity..].
Qed.
Lemma kept_raw cmd a : forall hs, (forall h (w : U * codec) cmd a, In h hs -> snd (fst (h w cmd a)) = snd w) -> forall w, snd (fst (run_raw hs w cmd a)) = snd w.
Proof.
  induction hs as [|h hs IH]; intros H w; [reflexivity|]. cbn [run_raw]. pose proof (H h w cmd a (or_introl eq_refl)) as E. destruct (h w cmd a) as [w1 [| |e]]; cbn [fst snd] in E |- *; auto.
  rewrite IH; [exact E|]. intros h' w' c' a' I. apply H. now right.
Qed.

(** The results of both. *)
Definition together (p : lstep * rstate (U * codec)) (p0 : lstep * rstate U) : Prop := fst p = fst p0 /\ alike (snd p) (snd p0).

Lemma mirror_accept o cmd a s s0 : alike s s0 -> together (accept_line (storing c) o cmd a s) (accept_line c0 o cmd a s0).
Proof.
  intros H. unfold accept_line. pose proof (mirror_choose cmd a s s0 H) as CH. destruct (choose cmd a s) as [e|t], (choose cmd a s0) as [e0|t0]; try contradiction; [subst; now split|].
  destruct (mirror_decode a t t0 CH) as [A D]. destruct (decode_into (storing c) a t) as [t1 x], (decode_into c0 a t0) as [t2 x0]. cbn [fst snd] in A, D. subst x0.
  destruct x as [e|[[]|e|]]; [now split| | |now split].
  - rewrite (alike_msg t1 t2 A). destruct (slot_msg t2) as [m|]; [|now split]. cbn [storing nc_msg]. pose proof A as [(A1 & _) _]. rewrite <- A1, (mirror_msgs _ _ (mi_msg c c0 MI) (rs_w t1) m).
    assert (K : stores_nothing c -> snd (fst (fst (run_msgs (nc_msg c) (rs_w t1, m)))) = snd (rs_w t1)) by (intros Q; apply kept_msgs; intros h w m' I; now apply (sn_msg c Q)).
    destruct (run_msgs (nc_msg c) (rs_w t1, m)) as [[w1 m1] [| |e]]; cbn [fst snd] in K |- *; (split; [reflexivity|]); cbn [snd]; (apply alike_w; [reflexivity| |now apply alike_put]);
      unfold put_msg; destruct (rs_slot t1); exact K.
  - cbn [storing nc_unmarshal_err]. pose proof (mi_error c c0 MI) as M. destruct (nc_unmarshal_err c) as [f|] eqn:F, (nc_unmarshal_err c0) as [f0|]; try contradiction; [|now split].
    pose proof A as [(A1 & _) _]. rewrite <- A1, M. assert (K : stores_nothing c -> snd (fst (f (rs_w t1) o e)) = snd (rs_w t1)) by (intros Q; exact (sn_error c Q f (rs_w t1) o e F)).
    destruct (f (rs_w t1) o e) as [w [[] x]]; cbn [fst snd] in K |- *; (split; [reflexivity|]); now apply alike_w.
Qed.

Lemma mirror_line l s s0 : alike s s0 -> together (process_line (storing c) l s) (process_line c0 l s0).
Proof.
  intros H. pose proof H as [(A1 & _) _]. unfold process_line. destruct (negb _); [now split|]. destruct (contains_byte _ _); [now split|]. destruct (removelast l) as [|b k].
  - cbn [storing nc_keep_alive]. pose proof (mi_alive c c0 MI) as M. destruct (nc_keep_alive c) as [f|] eqn:F, (nc_keep_alive c0) as [f0|]; try contradiction; [|now split].
    rewrite <- A1, M. assert (K : stores_nothing c -> snd (fst (f (rs_w s))) = snd (rs_w s)) by (intros Q; exact (sn_alive c Q f (rs_w s) F)).
    destruct (f (rs_w s)) as [w [e|]]; cbn [fst snd] in K |- *; (split; [reflexivity|]); now apply alike_w.
  - assert (RAW : forall cmd a k1 k2, (forall t t0, alike t t0 -> together (k1 t) (k2 t0)) ->
      together (match run_raw (nc_raw (storing c)) (rs_w s) cmd a with (w, HErr e) => (LReturn (Some e), with_w w s) | (w, HDrop) => (LSkip, with_w w s) | (w, HPass) => k1 (with_w w s) end)
               (match run_raw (nc_raw c0) (rs_w s0) cmd a with (w, HErr e) => (LReturn (Some e), with_w w s0) | (w, HDrop) => (LSkip, with_w w s0) | (w, HPass) => k2 (with_w w s0) end)).
    { intros cmd a k1 k2 KK. cbn [storing nc_raw]. rewrite <- A1, (mirror_raw cmd a _ _ (mi_raw c c0 MI) (rs_w s)).
      assert (K : stores_nothing c -> snd (fst (run_raw (nc_raw c) (rs_w s) cmd a)) = snd (rs_w s)) by (intros Q; apply kept_raw; intros h w c' a' I; now apply (sn_raw c Q)).
      destruct (run_raw (nc_raw c) (rs_w s) cmd a) as [w [| |e]]; cbn [fst snd] in K |- *; [apply KK|split; [reflexivity|]..]; now apply alike_w. }
    destruct (beq b "$"%byte).
    + destruct (match cut " "%byte k with Some (a, r) => (a, r) | None => (k, []) end) as [cmd args].
      apply (RAW (Some cmd) args (fun t => match cmd with [] => (LReturn (Some err_cmd_empty), t) | _ => if (nc_max_cmd (storing c) <? Z.of_nat (length cmd))%Z then (LReturn (Some err_cmd_long), t) else if negb (is_ascii_name cmd) then (LReturn (Some err_cmd_ascii), t) else accept_line (storing c) (b :: k) (Some cmd) args t end)
        (fun t => match cmd with [] => (LReturn (Some err_cmd_empty), t) | _ => if (nc_max_cmd c0 <? Z.of_nat (length cmd))%Z then (LReturn (Some err_cmd_long), t) else if negb (is_ascii_name cmd) then (LReturn (Some err_cmd_ascii), t) else accept_line c0 (b :: k) (Some cmd) args t end)).
      intros t t0 T. cbn [storing nc_max_cmd]. rewrite (mi_max c c0 MI). destruct cmd; [now split|]. destruct (_ <? _)%Z; [now split|]. destruct (negb _); [now split|]. now apply mirror_accept.
    + apply (RAW None (b :: k) (accept_line (storing c) (b :: k) None (b :: k)) (accept_line c0 (b :: k) None (b :: k))). intros t t0 T. now apply mirror_accept.
Qed.

Lemma mirror_through : forall ls s s0, alike s s0 -> fst (fst (through (storing c) ls s)) = fst (fst (through c0 ls s0)) /\
  alike (snd (fst (through (storing c) ls s))) (snd (fst (through c0 ls s0))) /\ snd (through (storing c) ls s) = snd (through c0 ls s0).
Proof.
  induction ls as [|l ls IH]; intros s s0 H; [now split|]. cbn [through]. destruct (mirror_line l s s0 H) as [E A].
  destruct (process_line (storing c) l s) as [x t], (process_line c0 l s0) as [x0 t0]. cbn [fst snd] in E, A. subst x0. destruct x as [|e|]; [now apply IH|now split..].
Qed.

Context {Z : Type} (act : Z -> zaction Z).
Lemma mirror_call k ls u dec (r : reader (U * codec) Z) (r0 : reader U Z) : supplies act r ls -> supplies act r0 ls ->
  exists o u2 dec2 dec0 r2 r02, eventually (fun f => stored_call act f k u (mkNreader r dec c) = Some (o, u2, mkNreader r2 dec2 c)) /\
    eventually (fun f => do_call act f k u (mkNreader r0 dec c0) = Some (o, u2, mkNreader r02 dec0 c0)) /\ (stores_nothing c -> dec2 = dec0).
Proof.
  intros HS HS0. assert (D : k = CAny [] \/ k <> CAny []) by (destruct k as [| |[|]]; auto; right; discriminate). destruct D as [->|NE].
  { exists (RAny Panic []), u, dec, dec, r, r0. split; [exists 0; reflexivity|]. split; [exists 0; reflexivity|reflexivity]. }
  set (o0 := match k with CInto m => SOwn m | _ => SNil end). set (al0 := match k with CAny ms => ms | _ => [] end).
  set (s := mkRs (u, dec) dec dec o0 al0). set (s0 := mkRs u dec dec o0 al0).
  assert (A0 : alike s s0) by (split; [repeat split|intros _; reflexivity]). destruct (mirror_through ls s s0 A0) as (T1 & T2 & T3).
  destruct (supplies_through act (storing c) ls s r HS) as (r2 & f1 & _ & K1). destruct (supplies_through act c0 ls s0 r0 HS0) as (r02 & f2 & _ & K2).
  destruct (through (storing c) ls s) as [[x t] left], (through c0 ls s0) as [[x0 t0] left0]. cbn [fst snd] in *. subst x0 left0.
  assert (RC : forall f, f1 <= f -> read_call act f o0 al0 (u, dec) (mkNreader r dec (storing c)) = Some (x, t, mkNreader r2 (rs_set t) (storing c))) by (intros f L; unfold read_call; cbn [nr_cfg nr_dec nr_line]; fold s; now rewrite K1 by lia).
  assert (RC0 : forall f, f2 <= f -> read_call act f o0 al0 u (mkNreader r0 dec c0) = Some (x, t0, mkNreader r02 (rs_set t0) c0)) by (intros f L; unfold read_call; cbn [nr_cfg nr_dec nr_line]; fold s0; now rewrite K2 by lia).
  pose proof (alike_msg t t0 T2) as SM. destruct T2 as [(B1 & B2 & B3 & B4 & B5) B6].
  assert (ANS : exists o, (forall f, f1 <= f -> do_call act f k (u, dec) (mkNreader r dec (storing c)) = Some (o, rs_w t, mkNreader r2 (rs_set t) (storing c))) /\
    (forall f, f2 <= f -> do_call act f k u (mkNreader r0 dec c0) = Some (o, rs_w t0, mkNreader r02 (rs_set t0) c0))).
  { destruct k as [|m|ms]; unfold o0, al0 in RC, RC0; eexists; split; intros f L; cbn [do_call].
    - unfold read_msg. rewrite RC by exact L. rewrite SM. instantiate (1 := RNew (match x with LReturn None => Ok (slot_msg t0) | LReturn (Some e) => Err e | _ => Panic end)). destruct x as [|[e|]|]; reflexivity.
    - unfold read_msg. rewrite RC0 by exact L. destruct x as [|[e|]|]; reflexivity.
    - unfold read_msg_to. rewrite RC by exact L. rewrite SM. reflexivity.
    - unfold read_msg_to. rewrite RC0 by exact L. reflexivity.
    - unfold read_msg_any. destruct ms as [|m0 ms]; [congruence|]. rewrite RC by exact L. rewrite B4, B5. reflexivity.
    - unfold read_msg_any. destruct ms as [|m0 ms]; [congruence|]. rewrite RC0 by exact L. reflexivity. }
  destruct ANS as (o & E1 & E2). exists o, (rs_w t0), (snd (rs_w t)), (rs_set t0), r2, r02. split; [|split].
  - exists f1. intros f L. unfold stored_call. cbn [nr_line nr_dec nr_cfg]. rewrite E1 by exact L. rewrite <- B1. destruct (rs_w t) as [u2 d2]. reflexivity.
  - exists f2. exact E2.
  - intros Q. rewrite (B6 Q). exact B3.
Qed.
End Mirror.
