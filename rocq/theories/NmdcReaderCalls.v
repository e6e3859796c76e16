(** Lemmas about single calls of the NMDC reader, hooks and expected messages. *)
From Verif Require Import Base BaseFacts Utf8 NmdcText NmdcChat NmdcMessage SpecNmdc SpecFrame NmdcDecodeFacts NmdcFrameFacts
  LineReader SpecLine LineReaderStream NmdcReader SpecReader NmdcReaderFacts NmdcReaderTypes.

Section Calls.
Context {W zstate : Type} (act : zstate -> zaction zstate).
Implicit Types (R : nreader W zstate) (w : W).

(** ** Types of results *)
Lemma msg_result f w R o w' R' : observing (nr_cfg R) -> read_msg act f w R = Some (Ok o, w', R') ->
  exists ls l m a, takes act f (nr_line R) (ls ++ [l]) (nr_line R') /\ o = Some m /\ line_for (nc_max_cmd (nr_cfg R)) l (msg_type m) a /\
    (msg_type m = [] -> exists ch, m = MChat ch) /\ (is_registered (msg_type m) = false -> m = MRaw (msg_type m) a).
Proof.
  intros OB. unfold read_msg, read_call. destruct (read_to act f f _ _ _) as [[[x s] r]|] eqn:E; [|discriminate].
  apply read_to_result in E; [|exact OB]. destruct E as [_ E]. destruct x as [|[e|]|]; try discriminate. intros H. injection H as <- <- <-.
  destruct (E eq_refl) as (ls & l & m & t & a & K1 & K2 & K3 & K4 & K5 & K6 & _). subst t.
  exists ls, l, m, a. rewrite K2. split; [exact K1|]. split; [reflexivity|]. split; [exact K3|]. split.
  - intros T. apply K5 in T. destruct m; try discriminate T. eauto.
  - intros U. apply unregistered_raw in U. destruct m; try discriminate U. cbn. now rewrite (K6 _ _ eq_refl).
Qed.

Lemma to_result f m w R x m' w' R' : observing (nr_cfg R) -> read_msg_to act f m w R = Some (x, m', w', R') ->
  msg_type m' = msg_type m /\
  (x = Ok tt -> exists ls l a, takes act f (nr_line R) (ls ++ [l]) (nr_line R') /\ line_for (nc_max_cmd (nr_cfg R)) l (msg_type m) a).
Proof.
  intros OB. unfold read_msg_to, read_call. destruct (read_to act f f _ _ _) as [[[y s] r]|] eqn:E; [|discriminate].
  apply read_to_result in E; [|exact OB]. destruct E as [[_ K] E]. destruct (K m eq_refl eq_refl) as (m2 & K1 & K2).
  intros H. injection H as Hx Hm <- <-. unfold slot_msg in Hm. rewrite K1 in Hm. subst m2. split; [exact K2|].
  intros ->. destruct y as [|[e|]|]; try discriminate. destruct (E eq_refl) as (ls & l & m3 & t & a & L1 & L2 & L3 & L4 & _).
  unfold slot_msg in L2. rewrite K1 in L2. injection L2 as <-. exists ls, l, a. split; [exact L1|]. rewrite <- K2, L4. exact L3.
Qed.

Lemma any_result f ms w R o ms' w' R' : observing (nr_cfg R) -> read_msg_any act f ms w R = Some (Ok o, ms', w', R') ->
  map msg_type ms' = map msg_type ms /\
  exists i m ls l a, o = Some i /\ nth_error ms' i = Some m /\ takes act f (nr_line R) (ls ++ [l]) (nr_line R') /\
    line_for (nc_max_cmd (nr_cfg R)) l (msg_type m) a.
Proof.
  intros OB. unfold read_msg_any. destruct ms as [|m0 ms0]; [discriminate|]. unfold read_call.
  destruct (read_to act f f _ _ _) as [[[y s] r]|] eqn:E; [|discriminate].
  apply read_to_result in E; [|exact OB]. destruct E as [[K _] E]. destruct y as [|[e|]|]; try discriminate. intros H. injection H as <- <- <- <-.
  split; [exact K|]. destruct (E eq_refl) as (ls & l & m & t & a & L1 & L2 & L3 & L4 & _ & _ & L7). destruct L7 as [i L7]; [discriminate|].
  unfold slot_msg in L2. rewrite L7 in L2. exists i, m, ls, l, a. rewrite L7. subst t. auto.
Qed.

(** ** The first line decides *)
Lemma line_fuel f w (r : reader W zstate) l w1 r1 : read_line act f w r = Some (LLine l, w1, r1) -> exists g, f = S g.
Proof. destruct f; [|eauto]. unfold read_line. destruct (rd_open r); discriminate. Qed.

Lemma call_line f o al w R l w1 r1 x s : read_line act f w (nr_line R) = Some (LLine l, w1, r1) ->
  process_line (nr_cfg R) l (mkRs w1 (nr_dec R) (nr_dec R) o al) = (x, s) -> x <> LSkip ->
  read_call act f o al w R = Some (x, s, mkNreader r1 (rs_set s) (nr_cfg R)).
Proof.
  intros H P N. destruct (line_fuel _ _ _ _ _ _ H) as [g ->]. unfold read_call. cbn [read_to rs_w]. rewrite H. unfold with_w. cbn [rs_dec rs_set rs_slot rs_allowed].
  rewrite P. destruct x; [contradiction|reflexivity..].
Qed.

(** A line with a command or chat, not filtered by raw hooks. *)
Lemma process_for (c : ncfg W) l t a s : nc_raw c = [] -> line_for (nc_max_cmd c) l t a ->
  exists orig cmd, typ_of cmd = t /\ cmd <> Some [] /\ (cmd = None -> t = []) /\ (t = [] -> cmd = None) /\ process_line c l s = accept_line c orig cmd a s.
Proof.
  intros Hr (body & cmd & -> & N & P & C). exists body, cmd. rewrite (process_parsed c _ cmd a s N P), Hr. cbn [run_raw].
  assert (E : name_error c cmd = None) by (apply name_error_none; destruct cmd; tauto). rewrite E, with_w_same.
  destruct cmd as [t'|]; [destruct C as [-> C]|].
  - assert (t <> []) by apply C. repeat split; auto; try discriminate; try contradiction. congruence.
  - subst t. repeat split; auto. discriminate.
Qed.

Lemma mismatch_to f m w R l t a w1 r1 : read_line act f w (nr_line R) = Some (LLine l, w1, r1) -> nc_raw (nr_cfg R) = [] ->
  line_for (nc_max_cmd (nr_cfg R)) l t a -> msg_type m <> t ->
  read_msg_to act f m w R = Some (Err (EUnexpectedCmd (msg_type m) t a), m, w1, mkNreader r1 (nr_dec R) (nr_cfg R)).
Proof.
  intros H Hr L N. destruct (process_for (nr_cfg R) l t a (mkRs w1 (nr_dec R) (nr_dec R) (SOwn m) []) Hr L) as (orig & cmd & T & NE & C1 & C2 & P).
  assert (C : choose cmd a (mkRs w1 (nr_dec R) (nr_dec R) (SOwn m) []) = inl (EUnexpectedCmd (msg_type m) t a)).
  { unfold choose. cbn [rs_allowed slot_msg rs_slot]. destruct cmd as [t'|]; cbn in T; subst.
    - destruct (is_chat m) eqn:E; [destruct m; try discriminate E; reflexivity|]. rewrite (proj2 (bytes_eqb_false _ _) N). reflexivity.
    - destruct (is_chat m) eqn:E; [|reflexivity]. destruct m; try discriminate E. now contradiction N. }
  unfold accept_line in P. rewrite C in P. unfold read_msg_to. rewrite (call_line f _ _ w R l w1 r1 _ _ H P) by discriminate. reflexivity.
Qed.

Lemma mismatch_any f m0 ms w R l t a w1 r1 : read_line act f w (nr_line R) = Some (LLine l, w1, r1) -> nc_raw (nr_cfg R) = [] ->
  line_for (nc_max_cmd (nr_cfg R)) l t a -> Forall (fun m => is_raw m = false /\ msg_type m <> t) (m0 :: ms) ->
  read_msg_any act f (m0 :: ms) w R = Some (Err (EUnexpectedCmd (msg_type m0) t a), m0 :: ms, w1, mkNreader r1 (nr_dec R) (nr_cfg R)).
Proof.
  intros H Hr L N. destruct (process_for (nr_cfg R) l t a (mkRs w1 (nr_dec R) (nr_dec R) SNil (m0 :: ms)) Hr L) as (orig & cmd & T & NE & C1 & C2 & P).
  assert (C : choose cmd a (mkRs w1 (nr_dec R) (nr_dec R) SNil (m0 :: ms)) = inl (EUnexpectedCmd (msg_type m0) t a)).
  { unfold choose. cbn [rs_allowed].
    match goal with |- context [first_index ?q _] => assert (F : first_index q (m0 :: ms) = None) end.
    { apply first_index_none. revert N. apply Forall_impl. intros m [M1 M2]. destruct cmd as [t'|]; cbn in T; subst; rewrite M1; cbn [orb].
      - now apply bytes_eqb_false.
      - destruct m; try reflexivity. now contradiction M2. }
    rewrite F. destruct cmd; cbn in T; subst; reflexivity. }
  unfold accept_line in P. rewrite C in P. unfold read_msg_any. rewrite (call_line f _ _ w R l w1 r1 _ _ H P) by discriminate. reflexivity.
Qed.

(** ** Malformed lines *)
Lemma malformed f w R body w1 r1 e : read_line act f w (nr_line R) = Some (LLine (body ++ B "|"), w1, r1) -> nc_raw (nr_cfg R) = [] ->
  (In x00 body /\ e = err_null \/
   ~ In x00 body /\ (exists t a, parsed body (Some t) a /\
     (t = [] /\ e = err_cmd_empty \/
      t <> [] /\ (nc_max_cmd (nr_cfg R) < Z.of_nat (length t))%Z /\ e = err_cmd_long \/
      t <> [] /\ (Z.of_nat (length t) <= nc_max_cmd (nr_cfg R))%Z /\ ~ Forall (fun b => In b name_chars) t /\ e = err_cmd_ascii))) ->
  forall o al, exists s, read_call act f o al w R = Some (LReturn (Some e), s, mkNreader r1 (nr_dec R) (nr_cfg R)) /\
    rs_w s = w1 /\ rs_slot s = o /\ rs_allowed s = al.
Proof.
  intros H Hr D o al. exists (mkRs w1 (nr_dec R) (nr_dec R) o al). split; [|auto].
  assert (P : process_line (nr_cfg R) (body ++ B "|") (mkRs w1 (nr_dec R) (nr_dec R) o al) = (LReturn (Some e), mkRs w1 (nr_dec R) (nr_dec R) o al)).
  { destruct D as [[D ->]|[D (t & a & P & D2)]]; [now apply process_nul|]. rewrite (process_parsed _ _ _ _ _ D P), Hr. cbn [run_raw].
    assert (E : name_error (nr_cfg R) (Some t) = Some e).
    { unfold name_error. destruct D2 as [[-> ->]|[(T & L & ->)|(T & L & C & ->)]]; [reflexivity|..].
      - destruct t; [contradiction|]. destruct (Z.ltb_spec (nc_max_cmd (nr_cfg R)) (Z.of_nat (length (b :: t)))); [reflexivity|lia].
      - destruct t as [|b t]; [contradiction|]. destruct (Z.ltb_spec (nc_max_cmd (nr_cfg R)) (Z.of_nat (length (b :: t)))); [lia|].
        destruct (is_ascii_name (b :: t)) eqn:E; [|reflexivity]. apply ascii_name_spec in E. contradiction. }
    rewrite E. reflexivity. }
  exact (call_line f o al w R _ w1 r1 _ _ H P ltac:(discriminate)).
Qed.

(** ** Raw messages in ReadMsgToAny *)
Lemma any_raw f t0 d0 ms w R l t a w1 r1 : read_line act f w (nr_line R) = Some (LLine l, w1, r1) -> nc_raw (nr_cfg R) = [] -> nc_msg (nr_cfg R) = [] ->
  line_for (nc_max_cmd (nr_cfg R)) l t a ->
  read_msg_any act f (MRaw t0 d0 :: ms) w R =
  (if (bytes_eqb t0 t && negb (bytes_eqb t []))%bool
   then Some (Ok (Some 0), MRaw t0 a :: ms, w1, mkNreader r1 (nr_dec R) (nr_cfg R))
   else Some (Err (EUnexpectedCmd t0 t a), MRaw t0 d0 :: ms, w1, mkNreader r1 (nr_dec R) (nr_cfg R))).
Proof.
  intros H Hr Hm L. destruct (process_for (nr_cfg R) l t a (mkRs w1 (nr_dec R) (nr_dec R) SNil (MRaw t0 d0 :: ms)) Hr L) as (orig & cmd & T & NE & C1 & C2 & P).
  assert (C : choose cmd a (mkRs w1 (nr_dec R) (nr_dec R) SNil (MRaw t0 d0 :: ms)) =
    if (bytes_eqb t0 t && negb (bytes_eqb t []))%bool then inr (mkRs w1 (nr_dec R) (nr_dec R) (SAllowed 0) (MRaw t0 d0 :: ms)) else inl (EUnexpectedCmd t0 t a)).
  { unfold choose. destruct cmd as [t'|]; cbn in T; subst; cbn [rs_allowed first_index is_raw orb with_slot slot_msg rs_slot nth_error rs_w rs_dec rs_set is_chat msg_type].
    - assert (E : bytes_eqb t [] = false) by (apply bytes_eqb_false; congruence). rewrite E. cbn [negb]. rewrite andb_true_r. destruct (bytes_eqb t0 t); reflexivity.
    - change (bytes_eqb [] []) with true. cbn [negb]. rewrite andb_false_r. reflexivity. }
  unfold accept_line in P. rewrite C in P. destruct (bytes_eqb t0 t && negb (bytes_eqb t []))%bool.
  - unfold decode_into in P. cbn [slot_msg rs_slot nth_error rs_allowed msg_unmarshal] in P. rewrite Hm in P.
    assert (P' : process_line (nr_cfg R) l (mkRs w1 (nr_dec R) (nr_dec R) SNil (MRaw t0 d0 :: ms)) =
      (LReturn None, mkRs w1 (nr_dec R) (nr_dec R) (SAllowed 0) (MRaw t0 a :: ms))) by (rewrite P; destruct (nc_unknown (nr_cfg R)); reflexivity).
    unfold read_msg_any. rewrite (call_line f _ _ w R l w1 r1 _ _ H P') by discriminate. reflexivity.
  - unfold read_msg_any. rewrite (call_line f _ _ w R l w1 r1 _ _ H P) by discriminate. reflexivity.
Qed.

(** ** Dropped messages *)

(** The pointer given to readMsgTo keeps pointing to a message. *)
Definition own (s : rstate W) : Prop := (exists m, rs_slot s = SOwn m) /\ rs_allowed s = [].
Lemma own_put m s : own s -> own (put_msg m s).
Proof. intros [[m0 E] A]. unfold own, put_msg, with_slot. rewrite E. cbn. eauto. Qed.
Lemma own_decode (c : ncfg W) a s : own s -> own (fst (decode_into c a s)).
Proof.
  intros O. unfold decode_into. destruct (slot_msg s) as [m|]; [|exact O]. destruct (msg_unmarshal (rs_dec s) m a) as [m1 r1]. cbv zeta.
  pose proof (own_put m1 s O) as O1. destruct (nc_unknown c) as [f|]; [|exact O1]. destruct r1 as [|[]|]; try exact O1.
  destruct (f _ text) as [w [dec|e]]; [|exact O1]. destruct (msg_unmarshal dec m1 _) as [m2 r2]. cbn [fst]. apply own_put. exact O1.
Qed.
Lemma own_accept (c : ncfg W) o cmd a s : own s -> own (snd (accept_line c o cmd a s)).
Proof.
  intros O. unfold accept_line. destruct (choose cmd a s) as [e|s1] eqn:C; [exact O|].
  assert (O1 : own s1).
  { destruct O as [[m E] A]. unfold choose in C. rewrite A in C. unfold slot_msg in C. rewrite E in C.
    assert (s1 = s) as -> by (destruct cmd; [destruct (is_chat m); [discriminate|destruct (bytes_eqb _ _); [|discriminate]]|destruct (is_chat m); [|discriminate]]; congruence). unfold own. eauto. }
  pose proof (own_decode c a s1 O1) as O2. destruct (decode_into c a s1) as [s2 [e|[[]|e|]]]; cbn [fst] in O2; try exact O2.
  - destruct (slot_msg s2) as [m|]; [|exact O2]. destruct (run_msgs _ _) as [[w m'] [| |e]]; exact (own_put m' s2 O2).
  - destruct (nc_unmarshal_err c) as [f|]; [|exact O2]. destruct (f _ _ _) as [w [[] x]]; exact O2.
Qed.
Lemma own_process (c : ncfg W) l s : own s -> own (snd (process_line c l s)).
Proof.
  intros O. unfold process_line. destruct (negb _); [exact O|]. destruct (contains_byte _ _); [exact O|]. destruct (removelast l) as [|b k].
  - destruct (nc_keep_alive c) as [f|]; [destruct (f _) as [w [e|]]|]; exact O.
  - destruct (beq b "$"%byte).
    + destruct (match cut " "%byte k with Some (a, r) => (a, r) | None => (k, []) end) as [cmd args]. destruct (run_raw _ _ _ _) as [w [| |e]]; try exact O.
      destruct cmd; [exact O|]. destruct (_ <? _)%Z; [exact O|]. destruct (negb _); [exact O|]. now apply own_accept.
    + destruct (run_raw _ _ _ _) as [w [| |e]]; try exact O. now apply own_accept.
Qed.
Lemma own_through (c : ncfg W) : forall ls s, own s -> own (snd (fst (through c ls s))).
Proof.
  induction ls as [|l ls IH]; intros s O; [exact O|]. cbn [through]. pose proof (own_process c l s O) as O1. destruct (process_line c l s) as [[|e|] s1]; cbn [snd] in O1; [now apply IH|exact O1..].
Qed.

(** A message dropped by a hook (or ignored after an error) stays behind the pointer. *)
Lemma drop_continues ls l w R m w1 : supplies act (nr_line R) (l :: ls) ->
  process_line (nr_cfg R) l (mkRs w (nr_dec R) (nr_dec R) SNil []) = (LSkip, mkRs w1 (nr_dec R) (nr_dec R) (SOwn m) []) ->
  forall r2, supplies act r2 ls ->
  exists x m' w' dec' r3 r4,
    eventually (fun f => read_msg act f w R = Some (match x with Ok _ => Ok (Some m') | Err e => Err e | Panic => Panic end, w', mkNreader r3 dec' (nr_cfg R))) /\
    eventually (fun f => read_msg_to act f m w1 (mkNreader r2 (nr_dec R) (nr_cfg R)) = Some (x, m', w', mkNreader r4 dec' (nr_cfg R))).
Proof.
  intros H P r2 H2. destruct (through (nr_cfg R) ls (mkRs w1 (nr_dec R) (nr_dec R) (SOwn m) [])) as [[x s] ls'] eqn:T.
  destruct (supplies_msg act (l :: ls) w R x s ls' H) as (r3 & K1 & K2); [cbn [through]; rewrite P; exact T|].
  destruct (supplies_through act (nr_cfg R) ls (mkRs w1 (nr_dec R) (nr_dec R) (SOwn m) []) r2 H2) as (r4 & f0 & K3 & K4). rewrite T in *. cbn [fst snd] in *.
  assert (HS : exists m', rs_slot s = SOwn m').
  { assert (O : own (mkRs w1 (nr_dec R) (nr_dec R) (SOwn m) [])) by (split; [exists m|]; reflexivity). apply (own_through (nr_cfg R) ls) in O. rewrite T in O. apply O. }
  destruct HS as [m' HS].
  exists (match x with LReturn None => Ok tt | LReturn (Some e) => Err e | _ => Panic end), m', (rs_w s), (rs_set s), r3, r4. split.
  - eapply eventually_mono; [|exact K2]. intros f E. rewrite E. unfold result, slot_msg. rewrite HS. destruct x as [|[e|]|]; reflexivity.
  - exists f0. intros f L. unfold read_msg_to, read_call. cbn [nr_cfg nr_dec nr_line]. rewrite K4 by lia. unfold slot_msg. rewrite HS. reflexivity.
Qed.

Lemma process_fresh (c : ncfg W) body t a w dec m r : nc_raw c = [] -> line_for (nc_max_cmd c) (body ++ B "|") t a ->
  msg_unmarshal dec (new_message t) a = (m, r) -> (forall text, r <> Err (EUnknownEnc text)) ->
  process_line c (body ++ B "|") (mkRs w dec dec SNil []) =
  (let s := mkRs w dec dec (SOwn m) [] in
   match r with
   | Panic => (LCrash, s)
   | Err e => match nc_unmarshal_err c with
              | None => (LReturn (Some e), s)
              | Some f => match f w body e with (w1, (false, _)) => (LSkip, with_w w1 s) | (w1, (true, o)) => (LReturn o, with_w w1 s) end
              end
   | Ok _ => match run_msgs (nc_msg c) (w, m) with
             | ((w1, m1), HPass) => (LReturn None, mkRs w1 dec dec (SOwn m1) []) | ((w1, m1), HDrop) => (LSkip, mkRs w1 dec dec (SOwn m1) [])
             | ((w1, m1), HErr e) => (LReturn (Some e), mkRs w1 dec dec (SOwn m1) []) end
   end).
Proof.
  intros Hr (body' & cmd & E & N & P & C) U NE. apply app_inv_tail in E. subst body'. rewrite (process_parsed c _ cmd a _ N P), Hr. cbn [run_raw].
  assert (E : name_error c cmd = None) by (apply name_error_none; destruct cmd; tauto). rewrite E, with_w_same.
  assert (CH : choose cmd a (mkRs w dec dec SNil []) = inr (mkRs w dec dec (SOwn (new_message t)) [])).
  { unfold choose. cbn [rs_allowed slot_msg rs_slot]. destruct cmd as [t'|]; [destruct C as [-> _]|subst t]; reflexivity. }
  unfold accept_line. rewrite CH. unfold decode_into. cbn [slot_msg rs_slot rs_dec]. rewrite U.
  assert (D : match nc_unknown c with Some f => match r with Err (EUnknownEnc text) => match f (rs_w (put_msg m (mkRs w dec dec (SOwn (new_message t)) []))) text with
      | (w0, inl dec0) => let s2 := mkRs w0 dec0 match dec0 with Some _ => dec0 | None => dec end (SOwn m) [] in
          let (m2, r2) := msg_unmarshal dec0 m match dec0 with Some _ => a | None => to_valid a end in (put_msg m2 s2, inr r2)
      | (w0, inr e) => (mkRs w0 dec dec (SOwn m) [], inl e) end | _ => (mkRs w dec dec (SOwn m) [], inr r) end | None => (mkRs w dec dec (SOwn m) [], inr r) end
      = (mkRs w dec dec (SOwn m) [], inr r)).
  { destruct (nc_unknown c); [|reflexivity]. destruct r as [|[]|]; try reflexivity. exfalso. eapply NE. reflexivity. }
  unfold put_msg, with_slot, with_w in *. cbn [rs_slot rs_w rs_dec rs_set rs_allowed] in *. rewrite D.
  destruct r as [[]|e|]; cbn [slot_msg rs_slot rs_w]; [destruct (run_msgs (nc_msg c) (w, m)) as [[w1 m1] []]|destruct (nc_unmarshal_err c) as [f|]; [destruct (f w body e) as [w1 [[] o]]|]|]; reflexivity.
Qed.

(** A line dropped by a raw hook leaves no trace. *)
Lemma raw_drop ls l w R w1 : supplies act (nr_line R) (l :: ls) ->
  process_line (nr_cfg R) l (mkRs w (nr_dec R) (nr_dec R) SNil []) = (LSkip, mkRs w1 (nr_dec R) (nr_dec R) SNil []) ->
  forall r2, supplies act r2 ls ->
  exists x w' dec' r3 r4,
    eventually (fun f => read_msg act f w R = Some (x, w', mkNreader r3 dec' (nr_cfg R))) /\
    eventually (fun f => read_msg act f w1 (mkNreader r2 (nr_dec R) (nr_cfg R)) = Some (x, w', mkNreader r4 dec' (nr_cfg R))).
Proof.
  intros H P r2 H2. destruct (through (nr_cfg R) ls (mkRs w1 (nr_dec R) (nr_dec R) SNil [])) as [[x s] ls'] eqn:T.
  destruct (supplies_msg act (l :: ls) w R x s ls' H) as (r3 & K1 & K2); [cbn [through]; rewrite P; exact T|].
  destruct (supplies_msg act ls w1 (mkNreader r2 (nr_dec R) (nr_cfg R)) x s ls' H2 T) as (r4 & K3 & K4).
  eexists _, _, _, r3, r4. split; [exact K2|exact K4].
Qed.
End Calls.
