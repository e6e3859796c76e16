(** Lemmas about the NMDC message reader. *)
From Verif Require Import Base BaseFacts Utf8 NmdcText NmdcTextFacts NmdcChat NmdcMessage SpecCommand SpecNmdc SpecFrame NmdcMsgFacts NmdcDecodeFacts NmdcFrameFacts
  LineReader SpecLine LineReaderFacts LineReaderStream LineReaderOps NmdcReader SpecReader.

Lemma with_w_same {W} (s : rstate W) : with_w (rs_w s) s = s. Proof. now destruct s. Qed.

(** ** Lines supplied by a line reader without hooks *)
Section Supply.
Context {W zstate : Type} (act : zstate -> zaction zstate).
Notation reader := (reader W zstate).

Definition gives (r : reader) (o : line_out) (r' : reader) : Prop :=
  forall w, eventually (fun f => read_line act f w r = Some (o, w, r')).

Inductive supplies : reader -> list bytes -> Prop :=
| sup_end r : rd_open r = true -> drained [] r -> supplies r []
| sup_rest r rest r' : gives r (LErr (Some rest) EEOF) r' -> rd_open r' = true -> drained [] r' -> supplies r []
| sup_line r l r' ls : gives r (LLine l) r' -> supplies r' ls -> supplies r (l :: ls).

Lemma rl_gives r o r' : rd_open r = true -> (forall w, rl act w [] r (o, w, r')) -> gives r o r'.
Proof.
  intros Ho H w. eapply eventually_mono; [|exact (H w)]. intros f E. unfold read_line. now rewrite Ho.
Qed.

Lemma drained_gives r : rd_open r = true -> drained [] r -> exists r', gives r (LErr (Some []) EEOF) r' /\ rd_open r' = true /\ drained [] r'.
Proof.
  intros Ho Hd. exists (with_plain [] [] r). destruct Hd as (H1 & H2 & H3 & H4). split; [|split; [exact Ho|repeat split; assumption]].
  apply rl_gives; [exact Ho|]. intros w. pose proof (over_nil r) as Hv.
  apply eventually_S, eventually_all. intros f. cbn [read_loop]. unfold over in Hv. rewrite Hv.
  unfold scan, cur_buf. rewrite H1, H4. unfold under_read. rewrite H1, H3. cbn. rewrite H2, H4. reflexivity.
Qed.

Lemma supplies_end r : supplies r [] -> exists rest r', gives r (LErr (Some rest) EEOF) r' /\ supplies r' [].
Proof.
  intros H. inversion H; subst.
  - destruct (drained_gives r) as (r' & K1 & K2 & K3); auto. exists [], r'. split; [exact K1|now apply sup_end].
  - eauto using sup_end.
Qed.

Lemma feeds_supplies st : forall ls m r rest, feeds act st [] m r (concat ls ++ rest) -> rd_open r = true -> rd_hooks r = [] ->
  Forall (is_line (rd_delim r)) ls -> ~ In (rd_delim r) rest ->
  Forall (fun l => within (rd_max r) (length l)) ls -> within (rd_max r) (S (length rest)) -> supplies r ls.
Proof.
  induction ls as [|l ls IH]; intros m r rest Hf Ho Hh Hl Hr Hw Hwr.
  - cbn [concat app] in Hf.
    destruct (loop_rest act st [] m r rest [] Hf) as (r2 & K1 & K2 & K3 & K4); [exact Hr|exact Hwr|].
    cbn [app] in K4. pose proof K2 as (G1 & G2 & G3 & G4).
    assert (Ho2 : over r2 rest = false) by (apply (over_false r2 rest (S (length rest))); [now rewrite G2|lia]).
    assert (HE : exists r3, drained [] r3 /\ same_cfg r2 r3 /\ forall w, rl act w rest r2 (LErr (Some rest) EEOF, w, r3)).
    { exists (with_plain [] [] r2). destruct K1 as (H1 & H2 & H3 & H4).
      split; [repeat split; cbn; auto|]. split; [repeat split|]. intros w.
      apply eventually_S, eventually_all. intros f. cbn [read_loop]. unfold over in Ho2. rewrite Ho2.
      unfold scan, cur_buf. rewrite H1, H4. unfold under_read. rewrite H1, H3. cbn. rewrite H2, H4. reflexivity. }
    destruct HE as (r3 & L1 & L2 & L3). apply (sup_rest r rest r3).
    + apply rl_gives; [exact Ho|]. intros w. apply K4, L3.
    + destruct L2 as (_ & _ & -> & _). congruence.
    + exact L1.
  - cbn [concat] in Hf. rewrite <- app_assoc in Hf. inversion Hl as [|? ? Hl1 Hl2]; subst. inversion Hw as [|? ? Hw1 Hw2]; subst.
    destruct (loop_line act st [] m r _ [] l (concat ls ++ rest) Hf eq_refl Hl1) as (m' & r' & K1 & K2 & K3 & K4 & K5); [easy|exact Hw1|].
    pose proof K3 as (G1 & G2 & G3 & G4).
    apply (sup_line r l r').
    + apply rl_gives; [exact Ho|]. intros w. apply K5. rewrite Hh. reflexivity.
    + apply (IH m' r' rest); rewrite ?G1, ?G2, ?G4; auto. congruence.
Qed.

(** ** The loop over the supplied lines *)

(** The lines are processed one after the other until one ends the call. *)
Fixpoint through (c : ncfg W) (ls : list bytes) (s : rstate W) : lstep * rstate W * list bytes :=
  match ls with
  | [] => (LReturn (Some EEOF), s, [])
  | l :: r => match process_line c l s with (LSkip, s') => through c r s' | (x, s') => (x, s', r) end
  end.

Lemma supplies_through c : forall ls s r, supplies r ls ->
  exists r' f0, supplies r' (snd (through c ls s)) /\
    forall f g, f0 <= f -> f0 <= g -> read_to act f g c s r = Some (fst (through c ls s), r').
Proof.
  induction ls as [|l ls IH]; intros s r H.
  - destruct (supplies_end r H) as (rest & r' & K1 & K2). destruct (K1 (rs_w s)) as [f0 Hf]. exists r', (S f0). split; [exact K2|].
    intros f g L1 L2. destruct f as [|f]; [lia|]. cbn [read_to through fst]. rewrite Hf by lia. now rewrite with_w_same.
  - inversion H as [| |? ? r1 ? K1 K2]; subst. cbn [through]. destruct (K1 (rs_w s)) as [f0 Hf].
    destruct (process_line c l s) as [[|e|] s'] eqn:E.
    + destruct (IH s' r1 K2) as (r' & f1 & L1 & L2). exists r', (S (Nat.max f0 f1)). split; [exact L1|].
      intros f g M1 M2. destruct f as [|f]; [lia|]. cbn [read_to]. rewrite Hf by lia. rewrite with_w_same, E. apply L2; lia.
    + exists r1, (S f0). split; [exact K2|]. intros f g M1 M2. destruct f as [|f]; [lia|]. cbn [read_to fst]. rewrite Hf by lia. now rewrite with_w_same, E.
    + exists r1, (S f0). split; [exact K2|]. intros f g M1 M2. destruct f as [|f]; [lia|]. cbn [read_to fst]. rewrite Hf by lia. now rewrite with_w_same, E.
Qed.

(** One call of ReadMsg over supplied lines. *)
Definition result (x : lstep) (s : rstate W) : res (option msg) :=
  match x with LReturn None => Ok (slot_msg s) | LReturn (Some e) => Err e | _ => Panic end.

Lemma supplies_msg ls w (R : nreader W zstate) x s ls' : supplies (nr_line R) ls ->
  through (nr_cfg R) ls (mkRs w (nr_dec R) (nr_dec R) SNil []) = (x, s, ls') ->
  exists r', supplies r' ls' /\
    eventually (fun f => read_msg act f w R = Some (result x s, rs_w s, mkNreader r' (rs_set s) (nr_cfg R))).
Proof.
  intros H E. destruct (supplies_through (nr_cfg R) ls (mkRs w (nr_dec R) (nr_dec R) SNil []) (nr_line R) H) as (r' & f0 & K1 & K2).
  rewrite E in *. cbn [fst snd] in *. exists r'. split; [exact K1|]. exists f0. intros f L. unfold read_msg, read_call. rewrite K2 by lia.
  destruct x as [|[e|]|]; reflexivity.
Qed.

(** ** Streams of messages *)
Lemma read_msgs_cons n w (R : nreader W zstate) o w1 R1 os w2 R2 :
  eventually (fun f => read_msg act f w R = Some (o, w1, R1)) ->
  eventually (fun f => read_msgs act f n w1 R1 = Some (os, w2, R2)) ->
  eventually (fun f => read_msgs act f (S n) w R = Some (o :: os, w2, R2)).
Proof.
  intros H1 H2. eapply eventually_mono; [|exact (eventually_and _ _ H1 H2)]. intros f [E1 E2]. cbn [read_msgs]. now rewrite E1, E2.
Qed.
End Supply.

(** ** Names and lines *)
Lemma name_byte_spec b : name_byte b = true <-> In b name_chars.
Proof.
  assert (H : name_byte b = contains_byte b name_chars).
  { apply Bool.eqb_prop. revert b. apply (forall_byte (fun b => Bool.eqb (name_byte b) (contains_byte b name_chars))). vm_compute. reflexivity. }
  rewrite H. apply contains_byte_spec.
Qed.
Lemma ascii_name_spec t : is_ascii_name t = true <-> Forall (fun b => In b name_chars) t.
Proof. unfold is_ascii_name. rewrite forallb_forall, Forall_forall. split; intros H b Hb; apply name_byte_spec; auto. Qed.

Lemma name_no_space t : Forall (fun b => In b name_chars) t -> ~ In " "%byte t /\ ~ In "|"%byte t /\ ~ In x00 t.
Proof.
  intros H. rewrite Forall_forall in H.
  repeat split; intros K; apply H in K; apply contains_byte_spec in K; vm_compute in K; discriminate.
Qed.

Lemma type_named m : match m with MRaw _ _ => False | MChat _ => False | _ => True end -> command_name 32 (msg_type m).
Proof.
  intros H. split; [|split].
  - intros E. apply type_nil in E. destruct E as [[c ->]|[d ->]]; exact H.
  - destruct m; try contradiction; cbn [msg_type]; try (vm_compute; discriminate);
      match goal with k : _ |- _ => destruct k; vm_compute; discriminate end.
  - apply ascii_name_spec. destruct m; try contradiction; cbn [msg_type]; try (vm_compute; reflexivity);
      match goal with k : _ |- _ => destruct k; vm_compute; reflexivity end.
Qed.

(** ** One line *)
Definition name_error {W} (c : ncfg W) (cmd : option bytes) : option error :=
  match cmd with
  | None => None
  | Some t =>
      if match t with [] => true | _ => false end then Some err_cmd_empty
      else if (nc_max_cmd c <? Z.of_nat (length t))%Z then Some err_cmd_long
      else if is_ascii_name t then None else Some err_cmd_ascii
  end.

Lemma name_error_none {W} (c : ncfg W) cmd : name_error c cmd = None <->
  match cmd with None => True | Some t => command_name (nc_max_cmd c) t end.
Proof.
  destruct cmd as [t|]; [|cbn; tauto]. unfold name_error, command_name. destruct t as [|b t]; [split; [discriminate|intros [[] _]; reflexivity]|].
  destruct (Z.ltb_spec (nc_max_cmd c) (Z.of_nat (length (b :: t)))).
  - split; [discriminate|intros (_ & ? & _); lia].
  - rewrite <- ascii_name_spec. destruct (is_ascii_name (b :: t)); split; try discriminate; auto.
    + intros _. repeat split; [discriminate|lia].
    + intros (_ & _ & ?). discriminate.
Qed.

Lemma last_app {A} (l : list A) a d : last (l ++ [a]) d = a.
Proof. induction l as [|x l IH]; [reflexivity|]. cbn [app last]. destruct (l ++ [a]) eqn:E; [destruct l; discriminate|exact IH]. Qed.

Lemma process_nul {W} (c : ncfg W) body s : In x00 body -> process_line c (body ++ B "|") s = (LReturn (Some err_null), s).
Proof.
  intros H. unfold process_line. change (B "|") with [delimiter]. rewrite last_app.
  destruct (body ++ [delimiter]) as [|e0 el] eqn:E; [destruct body; discriminate|]. rewrite <- E. rewrite beq_refl. cbn [negb].
  assert (K : contains_byte x00 (body ++ [delimiter]) = true) by (apply contains_byte_spec; apply in_app_iff; now left). now rewrite K.
Qed.

Lemma process_body {W} (c : ncfg W) body s : ~ In x00 body ->
  process_line c (body ++ B "|") s =
  match body with
  | [] => match nc_keep_alive c with
          | None => (LSkip, s)
          | Some f => match f (rs_w s) with
                      | (w, Some e) => (LReturn (Some e), with_w w s)
                      | (w, None) => (LSkip, with_w w s)
                      end
          end
  | b :: l =>
      let (cmd, args) := if beq b "$"%byte then match cut " "%byte l with Some (a, r) => (Some a, r) | None => (Some l, []) end else (None, body) in
      match run_raw (nc_raw c) (rs_w s) cmd args with
      | (w, HErr e) => (LReturn (Some e), with_w w s)
      | (w, HDrop) => (LSkip, with_w w s)
      | (w, HPass) => match name_error c cmd with
                      | Some e => (LReturn (Some e), with_w w s)
                      | None => accept_line c body cmd args (with_w w s)
                      end
      end
  end.
Proof.
  intros H. unfold process_line. change (B "|") with [delimiter]. rewrite last_app, removelast_last.
  destruct (body ++ [delimiter]) as [|e0 el] eqn:E; [destruct body; discriminate|]. rewrite <- E. rewrite beq_refl. cbn [negb].
  assert (K : contains_byte x00 (body ++ [delimiter]) = false).
  { apply contains_byte_false. rewrite in_app_iff. intros [K|[K|[]]]; [contradiction|discriminate]. }
  rewrite K. destruct body as [|b l0]; [reflexivity|]. destruct (beq b "$"%byte).
  - destruct (cut " "%byte l0) as [[a r]|]; cbv beta iota.
    + destruct (run_raw (nc_raw c) (rs_w s) (Some a) r) as [w [| |e]]; try reflexivity. cbn [name_error].
      destruct a; [reflexivity|]. destruct (Z.ltb _ _); [reflexivity|]. destruct (is_ascii_name _); reflexivity.
    + destruct (run_raw (nc_raw c) (rs_w s) (Some l0) []) as [w [| |e]]; try reflexivity. cbn [name_error].
      destruct l0; [reflexivity|]. destruct (Z.ltb _ _); [reflexivity|]. destruct (is_ascii_name _); reflexivity.
  - destruct (run_raw (nc_raw c) (rs_w s) None (b :: l0)) as [w [| |e]]; reflexivity.
Qed.

Lemma process_parsed {W} (c : ncfg W) body cmd args s : ~ In x00 body -> parsed body cmd args ->
  process_line c (body ++ B "|") s =
  match run_raw (nc_raw c) (rs_w s) cmd args with
  | (w, HErr e) => (LReturn (Some e), with_w w s)
  | (w, HDrop) => (LSkip, with_w w s)
  | (w, HPass) => match name_error c cmd with
                  | Some e => (LReturn (Some e), with_w w s)
                  | None => accept_line c body cmd args (with_w w s)
                  end
  end.
Proof.
  intros H P. rewrite process_body by exact H. destruct P as [b0 Hb Hd|t Ht|t a Ht].
  - destruct b0 as [|x b]; [contradiction|]. destruct (beq x "$"%byte) eqn:E; [|reflexivity].
    apply beq_true in E. subst x. exfalso. exact (Hd b eq_refl).
  - rewrite beq_refl. rewrite (proj2 (cut_none _ _) Ht). reflexivity.
  - rewrite beq_refl, cut_app by exact Ht. reflexivity.
Qed.

(** Every non-empty line is parsed in exactly one way. *)
Lemma parsed_exists body : body <> [] -> exists cmd args, parsed body cmd args.
Proof.
  destruct body as [|b l]; [contradiction|]. intros _. destruct (beq b "$"%byte) eqn:E.
  - apply beq_true in E. subst b. destruct (cut " "%byte l) as [[a r]|] eqn:C.
    + apply cut_spec in C. destruct C as [-> N]. exists (Some a), r. now constructor.
    + exists (Some l), []. constructor. now apply cut_none.
  - exists None, (b :: l). constructor; [discriminate|]. intros r K. injection K as -> ->. now rewrite beq_refl in E.
Qed.

Lemma framed_parsed t p f : framed t p f -> (t = [] -> forall r, p <> "$"%byte :: r) -> ~ In " "%byte t ->
  exists body, f = body ++ B "|" /\ parsed body (match t with [] => None | _ => Some t end) p.
Proof.
  intros H Hd Hs. destruct H as [p Hp|t Ht|t p Ht Hp].
  - exists p. split; [reflexivity|]. constructor; [exact Hp|exact (Hd eq_refl)].
  - exists ("$"%byte :: t). split; [reflexivity|]. destruct t as [|b t]; [contradiction|]. now constructor.
  - exists ("$"%byte :: t ++ " "%byte :: p). split; [cbn; now rewrite <- app_assoc|]. destruct t as [|b t]; [contradiction|]. now constructor.
Qed.

(** ** Lines that decode *)
Lemma chat_no_dollar enc m p : chat_marshal enc m = Ok p -> ~ starts_with (B "$") p.
Proof.
  unfold chat_marshal. intros H [r E]. apply bind_ok in H. destruct H as (h & H1 & H). apply bind_ok in H. destruct H as (t & H2 & H).
  apply ok_inj in H. rewrite <- H in E. apply string_marshal_safe in H2. destruct H2 as (H2 & _). clear H p.
  destruct (ch_name m) as [|c n].
  - apply ok_inj in H1. subst h. cbn [app] in E. rewrite E in H2. apply H2. apply in_app_iff. left. now left.
  - apply bind_ok in H1. destruct H1 as (b & _ & H1). apply ok_inj in H1. subst h. rewrite <- app_assoc in E. discriminate.
Qed.

Lemma sends_line enc dec limit m f : sends enc dec limit (Some m) f ->
  exists p, wire enc dec m p /\ raw_name m /\ line_for limit f (msg_type m) p /\ is_line "|"%byte f.
Proof.
  intros H. inversion H as [|? p ? Hw (Hs & Hr & Hl & Hn) Hf]; subst. change (command m) with (msg_type m) in *. exists p. split; [exact Hw|].
  assert (Hraw : raw_name m) by (destruct m; try exact I; exact (proj2 Hn)). split; [exact Hraw|].
  pose proof (wire_encodes _ _ _ _ Hw) as He.
  assert (HT : msg_type m <> [] -> command_name limit (msg_type m)).
  { intros N. destruct m as [| | | | | |c| | | | | | | | | | | | | | | | | | |t d]; try (split; [exact N|split; [exact Hl|]]; refine (proj2 (proj2 (type_named _ _))); exact I).
    - contradiction N. reflexivity.
    - exact (proj1 Hn). }
  assert (HP : forall c, c = "|"%byte \/ c = x00 -> ~ In c p).
  { intros c Hc. apply (payload_no c Hc enc m); auto. revert Hr. apply Forall_impl. destruct Hc as [->| ->]; tauto. }
  assert (HN : forall c, c = "|"%byte \/ c = x00 \/ c = " "%byte -> ~ In c (msg_type m)).
  { intros c Hc K. destruct (msg_type m) eqn:E; [contradiction|]. rewrite <- E in *. destruct HT as (_ & _ & HT); [rewrite E; discriminate|].
    apply name_no_space in HT. destruct HT as (T1 & T2 & T3). destruct Hc as [->|[->| ->]]; contradiction. }
  assert (HD : msg_type m = [] -> forall r, p <> "$"%byte :: r).
  { intros E r ->. apply type_nil in E. destruct E as [[ch ->]|[d ->]].
    - cbn in He. apply (chat_no_dollar _ _ _ He). now exists r.
    - destruct Hn as ((Hn & _) & _). contradiction. }
  destruct (framed_parsed _ _ _ Hf HD) as (body & -> & Hp); [auto|].
  destruct (framed_body _ _ _ x00 Hf) as (b1 & E1 & N1); auto; try discriminate.
  destruct (framed_body _ _ _ "|"%byte Hf) as (b2 & E2 & N2); auto; try discriminate.
  apply app_inv_tail in E1, E2. subst b1 b2. split.
  - eexists body, _. split; [reflexivity|]. split; [exact N1|]. split; [exact Hp|]. destruct (msg_type m) eqn:E; [reflexivity|]. split; [reflexivity|apply HT; discriminate].
  - exists body. auto.
Qed.

(** A line for a message which the message behind the pointer can take. *)
Definition takes_up (m : msg) (o : slot) : Prop :=
  match o with SNil => raw_name m | SOwn m0 => same_kind m m0 /\ sized m0 /\ unset m0 | SAllowed _ => False end.

Lemma same_kind_type m m0 : same_kind m m0 -> msg_type m0 = msg_type m /\ is_chat m0 = is_chat m.
Proof. destruct m, m0; cbn; try contradiction; intros; subst; auto. Qed.

Lemma process_wire {W} enc dec (c : ncfg W) f m p s : wire enc dec m p -> line_for (nc_max_cmd c) f (msg_type m) p ->
  (msg_type m = [] -> is_chat m = true) -> nc_raw c = [] -> rs_dec s = dec -> rs_allowed s = [] -> takes_up m (rs_slot s) ->
  process_line c f s =
  match run_msgs (nc_msg c) (rs_w s, m) with
  | ((w, m'), HPass) => (LReturn None, with_w w (with_slot (SOwn m') s))
  | ((w, m'), HDrop) => (LSkip, with_w w (with_slot (SOwn m') s))
  | ((w, m'), HErr e) => (LReturn (Some e), with_w w (with_slot (SOwn m') s))
  end.
Proof.
  intros Hw (body & cmd & -> & N & P & C) Hch Hr Hd Ha Ht. rewrite (process_parsed c body cmd p s N P), Hr. cbn [run_raw].
  assert (HE : name_error c cmd = None) by (apply name_error_none; destruct cmd; tauto). rewrite HE, with_w_same.
  assert (HX : exists m0, choose cmd p s = inr (with_slot (SOwn m0) s) /\ msg_unmarshal dec m0 p = (m, Ok tt)).
  { destruct s as [w0 d0 st0 sl0 al0]. cbn in Ha, Hd, Ht |- *. subst al0 d0. unfold choose, slot_msg. cbn [rs_allowed rs_slot].
    assert (HC : cmd = None -> is_chat m = true) by (intros ->; apply Hch, C).
    destruct sl0 as [|m0|i]; [| |contradiction].
    - destruct cmd as [t|].
      + destruct C as [-> _]. eexists. split; [reflexivity|]. exact (wire_fresh _ _ _ _ Hw Ht).
      + eexists. split; [reflexivity|]. pose proof (wire_fresh _ _ _ _ Hw Ht) as F. rewrite C in F. exact F.
    - destruct Ht as (K1 & K2 & K3). destruct (same_kind_type _ _ K1) as (T1 & T2). exists m0. split; [|exact (wire_decodes _ _ _ _ _ Hw K1 K2 K3)].
      rewrite T1, T2. destruct cmd as [t|].
      + destruct C as [-> (C1 & _)]. destruct (is_chat m) eqn:E; [exfalso; destruct m; try discriminate E; now apply C1|].
        rewrite (proj2 (bytes_eqb_true _ _) eq_refl). reflexivity.
      + rewrite (HC eq_refl). reflexivity. }
  destruct HX as (m0 & E1 & E2). unfold accept_line. rewrite E1. unfold decode_into. unfold slot_msg at 1. cbn [with_slot rs_slot rs_dec]. rewrite Hd, E2.
  destruct (nc_unknown c); cbv zeta; unfold put_msg, with_slot, slot_msg; cbn [rs_slot rs_w rs_dec rs_set rs_allowed];
    destruct (run_msgs (nc_msg c) (rs_w s, m)) as [[w m'] [| |e]]; reflexivity.
Qed.

(** ** Streams of messages *)
Section Streams.
Context {W zstate : Type} (act : zstate -> zaction zstate).
Variables (enc dec : codec) (c : ncfg W) (p : msg -> bool) (g : W -> W).
Hypothesis Hraw : nc_raw c = [].
Hypothesis Hmsg : forall w m, run_msgs (nc_msg c) (w, m) = ((w, m), if p m then HDrop else HPass).
Hypothesis Hka : match nc_keep_alive c with None => forall w, g w = w | Some f => forall w, f w = (g w, None) end.

Definition kept (l : list (option msg)) : list msg := filter (fun m => negb (p m)) (messages l).
Definition prev_slot (o : option msg) : slot := match o with None => SNil | Some m => SOwn m end.

Lemma process_keep s : process_line c (B "|") s = (LSkip, with_w (g (rs_w s)) s).
Proof.
  change (B "|") with ([] ++ B "|"). rewrite (process_body c [] s) by easy. destruct (nc_keep_alive c) as [f|]; [now rewrite Hka|]. rewrite Hka. now destruct s.
Qed.

Lemma through_sends : forall items fs prev w st, Forall2 (sends enc dec (nc_max_cmd c)) items fs -> drops_alike p prev (messages items) ->
  match kept items with
  | [] => exists o, through c fs (mkRs w dec st (prev_slot prev) []) = (LReturn (Some EEOF), mkRs (Nat.iter (keep_alives items) g w) dec st o [], [])
  | m :: _ =>
      exists fs2 items1 items2, through c fs (mkRs w dec st (prev_slot prev) []) = (LReturn None, mkRs (Nat.iter (keep_alives items1) g w) dec st (SOwn m) [], fs2) /\
        items = items1 ++ items2 /\ kept items = m :: kept items2 /\ Forall2 (sends enc dec (nc_max_cmd c)) items2 fs2 /\ drops_alike p None (messages items2)
  end.
Proof.
  induction items as [|it items IH]; intros fs prev w st H D.
  - inversion H; subst. cbn. now exists (prev_slot prev).
  - inversion H as [|? f ? fs' H1 H2]; subst. destruct it as [m|].
    + cbn [messages drops_alike] in D. destruct D as [D1 D2]. destruct (sends_line _ _ _ _ _ H1) as (q & Q1 & Q2 & Q3 & Q4).
      assert (E : process_line c f (mkRs w dec st (prev_slot prev) []) = (if p m then LSkip else LReturn None, mkRs w dec st (SOwn m) [])).
      { rewrite (process_wire enc dec c f m q _ Q1 Q3); auto.
        - rewrite Hmsg. destruct (p m); reflexivity.
        - intros E. apply type_nil in E. destruct E as [[ch ->]|[d ->]]; [reflexivity|]. cbn in Q2. vm_compute in Q2. discriminate.
        - destruct prev; [exact D1|exact Q2]. }
      unfold kept in *. cbn [messages filter through]. rewrite E. destruct (p m) eqn:Pm; cbn [negb].
      * specialize (IH fs' (Some m) w st H2 D2). cbn [prev_slot] in IH. cbn [keep_alives].
        destruct (filter (fun m => negb (p m)) (messages items)) as [|m' ms]; [exact IH|].
        destruct IH as (fs2 & i1 & i2 & K1 & K2 & K3 & K4 & K5). exists fs2, (Some m :: i1), i2. cbn [keep_alives app]. rewrite K2. now repeat split.
      * exists fs', [Some m], items. cbn [keep_alives app Nat.iter]. now repeat split.
    + inversion H1; subst. cbn [messages] in D. unfold kept in *. cbn [messages filter].
      assert (T : through c (B "|" :: fs') (mkRs w dec st (prev_slot prev) []) = through c fs' (mkRs (g w) dec st (prev_slot prev) [])) by (cbn [through]; now rewrite process_keep).
      rewrite T. clear T.
      specialize (IH fs' prev (g w) st H2 D). cbn [keep_alives].
      assert (HI : forall n x, Nat.iter n g (g x) = Nat.iter (S n) g x) by (induction n as [|n IHn]; intros x; [reflexivity|]; cbn; f_equal; apply IHn).
      destruct (filter (fun m => negb (p m)) (messages items)) as [|m' ms].
      * destruct IH as [o IH]. exists o. rewrite <- HI. exact IH.
      * destruct IH as (fs2 & i1 & i2 & K1 & K2 & K3 & K4 & K5). exists fs2, (None :: i1), i2. cbn [keep_alives app]. rewrite <- HI, K2. now repeat split.
Qed.

Lemma keep_alives_app a b : keep_alives (a ++ b) = keep_alives a + keep_alives b.
Proof. induction a as [|[m|] a IH]; cbn; lia. Qed.
Lemma iter_add {A} (f : A -> A) a b x : Nat.iter b f (Nat.iter a f x) = Nat.iter (a + b) f x.
Proof. rewrite Nat.add_comm. induction b as [|b IH]; [reflexivity|]. change (f (Nat.iter b f (Nat.iter a f x)) = f (Nat.iter (b + a) f x)). now rewrite IH. Qed.

Lemma firstn_repeat {A} (a : A) : forall n m, n <= m -> firstn n (repeat a m) = repeat a n.
Proof. induction n as [|n IH]; intros m H; [reflexivity|]. destruct m; [lia|]. cbn. f_equal. apply IH. lia. Qed.

Lemma supplies_eof : forall n w (r : reader W zstate) st, supplies act r [] ->
  exists r', eventually (fun f => read_msgs act f n w (mkNreader r st c) = Some (repeat (Err EEOF) n, w, mkNreader r' st c)).
Proof.
  induction n as [|n IH]; intros w r st H; [exists r; exists 0; reflexivity|].
  destruct (supplies_msg act [] w (mkNreader r st c) (LReturn (Some EEOF)) (mkRs w st st SNil []) [] H eq_refl) as (r1 & K1 & K2). cbn [rs_w rs_set nr_cfg result] in K2.
  destruct (IH w r1 st K1) as (r' & K3). exists r'. exact (read_msgs_cons act n _ _ _ _ _ _ _ _ K2 K3).
Qed.

Theorem stream_filtered : forall n items fs w (r : reader W zstate), Forall2 (sends enc dec (nc_max_cmd c)) items fs -> drops_alike p None (messages items) ->
  supplies act r fs ->
  exists w2 R2, eventually (fun f => read_msgs act f n w (mkNreader r dec c) = Some (msgs_then_eof n (kept items), w2, R2)) /\
    nr_dec R2 = dec /\ (length (kept items) < n -> w2 = Nat.iter (keep_alives items) g w).
Proof.
  induction n as [|n IH]; intros items fs w r H D S.
  - exists w, (mkNreader r dec c). split; [exists 0; reflexivity|]. split; [reflexivity|lia].
  - pose proof (through_sends items fs None w dec H D) as T. cbn [prev_slot] in T. destruct (kept items) as [|m ms] eqn:K.
    + destruct T as [o T].
      destruct (supplies_msg act fs w (mkNreader r dec c) _ _ _ S T) as (r1 & K1 & K2). cbn [rs_w rs_set nr_cfg result] in K2.
      destruct (supplies_eof n (Nat.iter (keep_alives items) g w) r1 dec K1) as (r2 & K3).
      exists (Nat.iter (keep_alives items) g w), (mkNreader r2 dec c).
      split; [|split; [reflexivity|auto]]. unfold msgs_then_eof. cbn [map app]. rewrite (firstn_repeat (Err EEOF) (Datatypes.S n)) by lia. cbn [repeat].
      exact (read_msgs_cons act n _ _ _ _ _ _ _ _ K2 K3).
    + destruct T as (fs2 & i1 & i2 & T & E1 & E2 & E3 & E4).
      destruct (supplies_msg act fs w (mkNreader r dec c) _ _ _ S T) as (r1 & K1 & K2). cbn [rs_w rs_set nr_cfg result slot_msg rs_slot] in K2.
      destruct (IH i2 fs2 (Nat.iter (keep_alives i1) g w) r1 E3 E4 K1) as (w2 & R2 & K3 & K4 & K5).
      exists w2, R2. injection E2 as E2. split; [|split; [exact K4|]].
      * unfold msgs_then_eof in *. cbn [map app firstn]. 
        assert (X : firstn n (map (fun m => Ok (Some m)) ms ++ repeat (Err EEOF) (Datatypes.S n)) = firstn n (map (fun m => Ok (Some m)) (kept i2) ++ repeat (Err EEOF) n)).
        { rewrite E2. rewrite !firstn_app. f_equal. rewrite !firstn_repeat by lia. reflexivity. }
        rewrite X. exact (read_msgs_cons act n _ _ _ _ _ _ _ _ K2 K3).
      * cbn [length]. rewrite E2. intros L. rewrite K5 by lia. rewrite iter_add, <- keep_alives_app, E1. reflexivity.
Qed.
End Streams.

(** A reader over a connection which is read in any pieces. *)
Lemma limited_supplies {W zstate} (act : zstate -> zaction zstate) limit c ls rest : Forall quiet c -> script_data c = concat ls ++ rest ->
  Forall (is_line "|"%byte) ls -> ~ In "|"%byte rest -> Forall (fun l => within limit (length l)) ls -> within limit (S (length rest)) ->
  supplies act (limited (W:=W) (Z:=zstate) limit [] c "|"%byte) ls.
Proof.
  intros Hq Hs Hl Hr Hw Hwr. destruct (limited_feeds act (W:=W) Lax limit [] c [] "|"%byte (quiet_okev c Hq)) as [m Hm]. rewrite app_nil_r, Hs in Hm.
  destruct (limited_fields (W:=W) (zstate:=zstate) limit [] c "|"%byte) as (H1 & H2 & H3 & _ & _ & _ & _ & H8).
  apply (feeds_supplies act Lax ls m _ rest Hm); rewrite ?H1, ?H2; auto.
Qed.
