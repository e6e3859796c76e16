(** Lemmas about ADC packets. *)
From Verif Require Import Base BaseFacts Num NumFacts NumSpec SpecText Base32 Base32Facts Tiger SpecHash TigerFacts.
From Verif Require Import AdcText SpecAdc AdcTextFacts AdcValue AdcValueFacts AdcMessage AdcMessageFacts AdcCustomFacts AdcPacket SpecAdcMessage.

(** ** Hash texts *)
Lemma sym_in v : In (sym v) alphabet.
Proof.
  unfold sym. apply nth_In. change (length alphabet) with 32. assert (N.land v 31 < 32)%N; [|lia].
  change 31%N with (N.ones 5). rewrite N.land_ones. apply N.mod_lt. discriminate.
Qed.
Lemma hash_text_in h c : In c (hash_base32 h) -> In c alphabet.
Proof. unfold hash_base32. rewrite encode_values. intros I. apply in_map_iff in I. destruct I as (v & <- & _). apply sym_in. Qed.
Lemma hash_text_not h c : contains_byte c alphabet = false -> ~ In c (hash_base32 h).
Proof. intros N I. apply hash_text_in in I. apply contains_byte_spec in I. congruence. Qed.

(** ** Round trip *)


Lemma ends_line_snoc d : ends_line (d ++ [x0a]) = true.
Proof. unfold ends_line. destruct (d ++ [x0a]) eqn:E; [destruct d; discriminate|]. rewrite <- E, last_last. reflexivity. Qed.
Lemma ends_line_iff d : ends_line d = true <-> exists q, d = q ++ [x0a].
Proof.
  split; [|intros [q ->]; apply ends_line_snoc]. unfold ends_line. destruct d as [|c d]; [discriminate|]. intros H. apply beq_true in H.
  exists (removelast (c :: d)). rewrite <- H. apply app_removelast_last. discriminate.
Qed.
Lemma removelast_snoc {A} (d : list A) c : removelast (d ++ [c]) = d.
Proof. apply removelast_last. Qed.

(** The header without its last space, and the packet in one form *)
Definition header' (p : packet) : bytes :=
  match p with
  | PInfo _ | PHub _ | PClient _ => []
  | PBroadcast id _ => " "%byte :: id
  | PDirect id to _ | PEcho id to _ => " "%byte :: id ++ " "%byte :: to
  | PFeature id sel _ => " "%byte :: id ++ match sel with [] => [] | _ => " "%byte :: removelast (flat_map selector sel) end
  | PUdp cid _ => " "%byte :: hash_base32 cid
  end.
Definition tail_of (p : packet) : bytes := match marshal (message p) with [] => [] | d => " "%byte :: d end.
Lemma flat_selectors_snoc sel s : flat_map selector (sel ++ [s]) = (flat_map selector sel ++ (if snd s then "+"%byte else "-"%byte) :: fst s) ++ [" "%byte].
Proof. rewrite flat_map_app. cbn [flat_map]. unfold selector. rewrite app_nil_r. change (B " ") with [" "%byte]. now rewrite <- app_assoc. Qed.
Lemma header_sp p : header p = header' p ++ [" "%byte].
Proof.
  destruct p; cbn [header header']; change (B " ") with [" "%byte]; cbn [app]; rewrite <- ?app_assoc; try reflexivity.
  destruct sel as [|s sel _] using rev_ind; [reflexivity|].
  rewrite flat_selectors_snoc, removelast_snoc. destruct (sel ++ [s]) eqn:E; [destruct sel; discriminate|].
  cbn [app]. now rewrite <- !app_assoc.
Qed.
Lemma marshal_form p : marshal_packet p = kind_of p :: cmd (message p) ++ header' p ++ tail_of p ++ [x0a].
Proof.
  unfold marshal_packet, tail_of. rewrite header_sp. destruct (marshal (message p)) as [|c d].
  - rewrite app_comm_cons, app_assoc, removelast_snoc. now rewrite <- !app_assoc.
  - rewrite <- app_comm_cons, <- !app_assoc. reflexivity.
Qed.

Lemma known_kinds p : known_kind (kind_of p) = true /\ kind_of p <> x00.
Proof. destruct p; split; (reflexivity || discriminate). Qed.

Lemma header_nul p : parts_ok p -> ~ In x00 (header p).
Proof.
  assert (S : ~ In x00 (B " ")) by (cbn; intuition discriminate).
  assert (H : forall h, ~ In x00 (hash_base32 h)) by (intros h; now apply hash_text_not).
  destruct p; cbn [header parts_ok]; intros P I; repeat (apply in_app_or in I; destruct I as [I|I]); try tauto;
    try (unfold sid_ok in P; tauto); try (exact (H _ I)).
  apply in_flat_map in I. destruct I as (s & X & I). destruct P as [_ P]. rewrite Forall_forall in P. destruct (P s X) as [_ N].
  unfold selector in I. destruct I as [I|I]; [destruct (snd s); discriminate|]. apply in_app_or in I. tauto.
Qed.

Lemma decode_frame sp k name x : length name = 3 -> known_kind k = true -> ~ In x00 (k :: name ++ x) ->
  x = [] \/ (exists y, x = " "%byte :: y) -> decode_packet_raw sp (k :: name ++ x ++ [x0a]) =
  unmarshal_packet sp k name (match x with [] => [] | _ :: y => y end ++ [x0a]).
Proof.
  intros L K N X. unfold decode_packet_raw. destruct name as [|a [|b [|c [|]]]]; try discriminate. cbn [app length tl firstn skipn] in *.
  change (at_ (k :: a :: b :: c :: x ++ [x0a]) 0) with k.
  assert (C : contains_byte x00 (k :: a :: b :: c :: x ++ [x0a]) = false).
  { apply contains_byte_false. intros I. apply N. cbn in *. rewrite in_app_iff in I. cbn in I. intuition discriminate. }
  rewrite C, K, ends_line_snoc. rewrite app_length. cbn [length]. destruct (Nat.ltb_spec (S (S (S (S (length x + 1))))) 5); [lia|].
  cbn [negb]. destruct X as [->|[y ->]]; reflexivity.
Qed.


Lemma sel_loop_sels sp sel : forall fuel acc d, Forall (fun s : feature_sel => length (fst s) = 4) sel ->
  match d with [] => True | c :: _ => stop c end -> length (flat_map selector sel ++ d) < fuel ->
  sel_loop fuel sp (flat_map selector sel ++ d) acc = Ok (acc ++ sel, d).
Proof.
  induction sel as [|s sel IH]; intros fuel acc d F D L.
  - cbn [flat_map app] in *. rewrite app_nil_r. destruct fuel; [lia|]. cbn [sel_loop]. destruct d as [|c d]; [reflexivity|].
    destruct D as (A & B & C). apply beq_false in A, B, C. now rewrite A, B, C.
  - inversion F as [|? ? S F']; subst. destruct s as [f b]. cbn [fst] in S. destruct f as [|f1 [|f2 [|f3 [|f4 [|]]]]]; try discriminate.
    cbn [flat_map] in *. unfold selector at 1. unfold selector at 1 in L. cbn [fst snd] in *. change (B " ") with [" "%byte] in *. cbn [app] in *.
    cbn [length] in L. destruct fuel as [|[|fuel]]; try (cbn in L; lia). cbn [sel_loop].
    set (r := flat_map selector sel ++ d) in *.
    assert (X : (beq (if b then "+"%byte else "-"%byte) "+" || beq (if b then "+"%byte else "-"%byte) "-")%bool = true) by (destruct b; reflexivity).
    rewrite X. cbn [length Nat.ltb Nat.leb skipn firstn beq]. change (beq " " "+" || beq " " "-")%bool with false. cbn iota.
    change (beq " " " ") with true. cbn iota. unfold r. rewrite IH; [|assumption|assumption|unfold r in *; lia].
    rewrite <- app_assoc. cbn [app]. replace (beq (if b then "+"%byte else "-"%byte) "+") with b by (destruct b; reflexivity). reflexivity.
Qed.

(** Without payload the last selector is not followed by a space *)
Lemma sel_loop_last sp sel s fuel acc : Forall (fun s : feature_sel => length (fst s) = 4) (sel ++ [s]) ->
  length (flat_map selector (sel ++ [s])) <= fuel ->
  sel_loop fuel sp (flat_map selector sel ++ (if snd s then "+"%byte else "-"%byte) :: fst s) acc = Ok (acc ++ sel ++ [s], []).
Proof.
  intros F L. revert fuel acc L. induction sel as [|[f b] sel IH]; intros fuel acc L.
  - cbn [flat_map app] in *. inversion F as [|? ? S _]; subst. destruct s as [f b]. cbn [fst snd] in *. destruct f as [|f1 [|f2 [|f3 [|f4 [|]]]]]; try discriminate.
    unfold selector in L. cbn in L. do 2 (destruct fuel; [cbn in L; lia|]).
    cbn [sel_loop]. assert (X : (beq (if b then "+"%byte else "-"%byte) "+" || beq (if b then "+"%byte else "-"%byte) "-")%bool = true) by (destruct b; reflexivity).
    rewrite X. cbn [length Nat.ltb Nat.leb skipn firstn]. destruct b; reflexivity.
  - cbn [app] in F. inversion F as [|? ? S F']; subst. cbn [fst] in S. destruct f as [|f1 [|f2 [|f3 [|f4 [|]]]]]; try discriminate.
    cbn [flat_map app] in *. unfold selector at 1. unfold selector at 1 in L. cbn [fst snd] in *. change (B " ") with [" "%byte] in *. cbn [app] in *.
    cbn [length] in L. destruct fuel as [|[|fuel]]; try (cbn in L; lia). cbn [sel_loop].
    assert (X : (beq (if b then "+"%byte else "-"%byte) "+" || beq (if b then "+"%byte else "-"%byte) "-")%bool = true) by (destruct b; reflexivity).
    rewrite X. cbn [length Nat.ltb Nat.leb skipn firstn]. change (beq " " "+" || beq " " "-")%bool with false. cbn iota.
    change (beq " " " ") with true. cbn iota. rewrite IH; [|assumption|lia].
    rewrite <- !app_assoc. cbn [app]. replace (beq (if b then "+"%byte else "-"%byte) "+") with b by (destruct b; reflexivity). reflexivity.
Qed.

(** One identifier *)
Lemma id_checks_ok l id d : length id = l -> d = [] \/ (exists y, d = " "%byte :: y) -> id_checks l (id ++ d ++ [x0a]) = Ok tt.
Proof.
  intros L D. unfold id_checks. rewrite !app_length. cbn [length]. destruct (Nat.ltb_spec (length id + (length d + 1)) l); [lia|].
  rewrite app_assoc, ends_line_snoc, <- app_assoc. cbn [negb]. unfold at_. rewrite app_nth2 by lia. rewrite L, Nat.sub_diag.
  destruct D as [->|[y ->]]; cbn; now rewrite !andb_false_r.
Qed.
Lemma after_id_ok l id d : length id = l -> after_id l (id ++ d ++ [x0a]) = tl d.
Proof.
  intros L. unfold after_id. rewrite app_assoc, removelast_snoc. rewrite skipn_app, skipn_all2 by lia.
  replace (S l - length id) with 1 by lia. destruct d; reflexivity.
Qed.
Lemma firstn_id l (id d : bytes) : length id = l -> firstn l (id ++ d) = id.
Proof. intros <-. rewrite firstn_app, firstn_all, Nat.sub_diag. cbn. apply app_nil_r. Qed.
Lemma sid_ok_unmarshal id : length id = 4 -> sid_unmarshal id = Ok id.
Proof. intros L. unfold sid_unmarshal. now rewrite L. Qed.


Lemma direct_ok mk t id to td d : sid_ok id -> sid_ok to -> td = [] \/ (exists y, td = " "%byte :: y) -> tl td = d ->
  direct_unmarshal mk t (((id ++ " "%byte :: to) ++ td) ++ [x0a]) = Ok (mk id to (ARaw t d)).
Proof.
  intros [A _] [B _] TD TL. unfold direct_unmarshal. rewrite ends_line_snoc. rewrite !app_length. cbn [length]. rewrite A, B.
  destruct (Nat.ltb_spec (4 + 5 + length td + 1) 9); [lia|]. cbn [negb].
  assert (A4 : at_ (((id ++ " "%byte :: to) ++ td) ++ [x0a]) 4 = " "%byte).
  { unfold at_. rewrite <- !app_assoc. rewrite app_nth2 by lia. rewrite A. reflexivity. }
  rewrite A4. cbn [negb beq]. change (beq " " " ") with true. cbn [negb].
  assert (L9 : length (id ++ " "%byte :: to) = 9) by (rewrite app_length; cbn; lia).
  assert (A9 : negb (beq (at_ (((id ++ " "%byte :: to) ++ td) ++ [x0a]) 9) " ") && negb (beq (at_ (((id ++ " "%byte :: to) ++ td) ++ [x0a]) 9) x0a) = false).
  { unfold at_. rewrite <- app_assoc. rewrite app_nth2 by lia. rewrite L9. destruct TD as [->|[y ->]]; reflexivity. }
  rewrite <- andb_assoc, A9, andb_false_r. rewrite <- (app_assoc _ td). rewrite after_id_ok by assumption. rewrite TL.
  rewrite <- (app_assoc id). rewrite firstn_id, sid_ok_unmarshal by assumption. cbn [bind].
  replace (skipn 5 (id ++ (" "%byte :: to) ++ td ++ [x0a])) with (to ++ td ++ [x0a]).
  2:{ rewrite skipn_app, skipn_all2 by lia. rewrite A. reflexivity. }
  rewrite firstn_id, sid_ok_unmarshal by assumption. reflexivity.
Qed.

Lemma packet_roundtrip sp p t d : raw p t d -> length t = 3 -> ~ In x00 t -> ~ In x00 d -> parts_ok p -> payload_ok p ->
  decode_packet_raw sp (marshal_packet p) = Ok p.
Proof.
  unfold raw. intros M T NT ND P Y. rewrite marshal_form. unfold tail_of. rewrite M. cbn [marshal cmd].
  set (td := match d with [] => [] | c :: e => " "%byte :: c :: e end).
  assert (TD : td = [] \/ exists y, td = " "%byte :: y) by (unfold td; destruct d; [now left|right; eauto]).
  assert (TL : tl td = d) by (unfold td; now destruct d).
  assert (NH : ~ In x00 (header' p)).
  { assert (Nh := header_nul p P). rewrite header_sp in Nh. intros I. apply Nh, in_or_app. now left. }
  assert (NTD : ~ In x00 td) by (unfold td; destruct d; [intros []|]; intros [I|I]; [discriminate|tauto]).
  replace (header' p ++ td ++ [x0a]) with ((header' p ++ td) ++ [x0a]) by now rewrite app_assoc.
  rewrite decode_frame.
  2: assumption.
  2: apply known_kinds.
  2:{ intros I. destruct I as [I|I]; [now apply (known_kinds p)|].
      apply in_app_or in I. destruct I as [I|I]; [tauto|]. apply in_app_or in I. tauto. }
  2:{ destruct p; cbn [header']; try (right; eexists; reflexivity); exact TD. }
  assert (IP : forall mk, match d ++ [x0a] with [] => Panic | _ => if ends_line (d ++ [x0a]) then Ok (mk (ARaw t (removelast (d ++ [x0a])))) else Err (EText "invalid packet delimiter") end = Ok (mk (ARaw t d) : packet)).
  { intros mk. rewrite ends_line_snoc, removelast_snoc. destruct d; reflexivity. }
  assert (E : match td with [] => [] | _ :: y => y end = d) by (rewrite <- TL; now destruct td).
  destruct p; cbn [message kind_of header' parts_ok] in *; subst m; cbn [app].
  - rewrite E. exact (IP PInfo).
  - rewrite E. etransitivity; [|exact (IP PHub)]. cbn -[ends_line removelast]. destruct d; reflexivity.
  - change (unmarshal_packet sp "B" t ((id ++ td) ++ [x0a])) with (broadcast_unmarshal t ((id ++ td) ++ [x0a])).
    rewrite <- app_assoc. destruct P as [P _]. unfold broadcast_unmarshal. rewrite id_checks_ok by assumption. cbn [bind].
    rewrite firstn_id, sid_ok_unmarshal, after_id_ok by assumption. cbn [bind]. now rewrite TL.
  - change (unmarshal_packet sp "D" t (((id ++ " "%byte :: to) ++ td) ++ [x0a])) with (direct_unmarshal PDirect t (((id ++ " "%byte :: to) ++ td) ++ [x0a])).
    apply direct_ok; tauto || assumption.
  - change (unmarshal_packet sp "E" t (((id ++ " "%byte :: to) ++ td) ++ [x0a])) with (direct_unmarshal PEcho t (((id ++ " "%byte :: to) ++ td) ++ [x0a])).
    apply direct_ok; tauto || assumption.
  - rewrite E. etransitivity; [|exact (IP PClient)]. cbn -[ends_line removelast]. destruct d; reflexivity.
  - change (unmarshal_packet sp "F" t ?x) with (feature_packet_unmarshal sp t x). destruct P as [[P _] F].
    rewrite <- !app_assoc. unfold feature_packet_unmarshal.
    set (y := match sel with [] => [] | _ => " "%byte :: removelast (flat_map selector sel) end ++ td).
    assert (Y' : (match sel with [] => [] | _ => " "%byte :: removelast (flat_map selector sel) end ++ td ++ [x0a]) = y ++ [x0a]) by (unfold y; now rewrite <- app_assoc).
    rewrite Y'. rewrite id_checks_ok; [|assumption|unfold y; destruct sel; [exact TD|right; eexists; reflexivity]]. cbn [bind].
    rewrite firstn_id, sid_ok_unmarshal, after_id_ok by assumption. cbn [bind].
    assert (F4 : Forall (fun s : feature_sel => length (fst s) = 4) sel) by (eapply Forall_impl; [|exact F]; intros s [A _]; exact A).
    assert (S : sel_loop (S (length (id ++ y ++ [x0a]))) (S sp) (tl y) [] = Ok (sel, d)); [|rewrite S; reflexivity].
    cbn [payload_ok] in Y. unfold y. destruct d as [|c d].
    + unfold td. rewrite !app_nil_r. destruct sel as [|s sel _] using rev_ind; [reflexivity|].
      destruct (sel ++ [s]) eqn:Z; [destruct sel; discriminate|]. rewrite <- Z in *. cbn [tl].
      rewrite flat_selectors_snoc, removelast_snoc. rewrite sel_loop_last; [reflexivity|assumption|].
      rewrite flat_selectors_snoc. repeat (rewrite ?app_length; cbn [length]). lia.
    + unfold td. assert (W : tl (match sel with [] => [] | _ => " "%byte :: removelast (flat_map selector sel) end ++ " "%byte :: c :: d) = flat_map selector sel ++ c :: d).
      { destruct sel as [|s sel _] using rev_ind; [reflexivity|].
        destruct (sel ++ [s]) eqn:Z; [destruct sel; discriminate|]. rewrite <- Z in *. cbn [tl app].
        rewrite flat_selectors_snoc, removelast_snoc. now rewrite <- !app_assoc. }
      rewrite W. rewrite sel_loop_sels; [reflexivity|assumption|exact Y|].
      rewrite <- W. set (X := match sel with [] => [] | _ => " "%byte :: removelast (flat_map selector sel) end ++ " "%byte :: c :: d).
      assert (L : length (tl X) <= length X) by (destruct X; cbn; lia). rewrite !app_length. lia.
  - change (unmarshal_packet sp "U" t ((hash_base32 cid ++ td) ++ [x0a])) with (udp_unmarshal t ((hash_base32 cid ++ td) ++ [x0a])).
    destruct (hash_text cid P) as [L _]. rewrite <- app_assoc. unfold udp_unmarshal. rewrite id_checks_ok by assumption. cbn [bind].
    rewrite firstn_id, after_id_ok by assumption.
    destruct (hash_roundtrips cid (repeat x00 24) P (repeat_length _ _)) as (_ & _ & R & _). unfold hash_size. rewrite R. cbn [of_hash bind]. now rewrite TL.
Qed.

(** ** The frame of a packet *)

Lemma decode_framed sp k name data p : framed k name data p -> known_kind k = true -> ~ In x00 p -> ends_line data = true ->
  decode_packet_raw sp p = unmarshal_packet sp k name data.
Proof.
  intros [L F] K N E. unfold decode_packet_raw. rewrite (proj2 (contains_byte_false _ _) N).
  destruct name as [|a [|b [|c [|]]]]; try discriminate.
  destruct data as [|x data]; [discriminate|].
  destruct F as [->|(d & D & ->)]; [|injection D as -> ->]; cbn [app length Nat.ltb Nat.leb at_ nth tl firstn skipn]; rewrite K; cbn [negb].
  - assert (E' : ends_line (" "%byte :: x :: data) = true) by exact E. rewrite E'. reflexivity.
  - rewrite E. reflexivity.
Qed.

Lemma decode_inv sp p : (forall e, decode_packet_raw sp p <> Err e) ->
  exists k name data, framed k name data p /\ known_kind k = true /\ ~ In x00 p /\ ends_line data = true /\
    decode_packet_raw sp p = unmarshal_packet sp k name data.
Proof.
  intros H. assert (G := H). unfold decode_packet_raw in H.
  destruct (Nat.ltb_spec (length p) 5) as [Q|Q]; [exfalso; eapply H; reflexivity|].
  destruct (contains_byte x00 p) eqn:C; [exfalso; eapply H; reflexivity|].
  destruct (known_kind (at_ p 0)) eqn:K; [|exfalso; eapply H; reflexivity]. cbn [negb] in H.
  destruct p as [|k [|a [|b [|c [|x p]]]]]; try (cbn in Q; lia). cbn [tl firstn skipn at_ nth] in H, K.
  destruct (ends_line (x :: p)) eqn:E; [|exfalso; eapply H; reflexivity]. cbn [negb] in H.
  apply contains_byte_false in C.
  assert (R : exists data, framed k [a; b; c] data (k :: a :: b :: c :: x :: p) /\ ends_line data = true).
  { destruct (beq x " ") eqn:X.
    - apply beq_true in X. subst x. exists p. split; [split; [reflexivity|now left]|]. destruct p; [discriminate|exact E].
    - destruct (beq x x0a) eqn:X'; [|exfalso; eapply H; reflexivity]. apply beq_true in X'. subst x.
      exists (x0a :: p). split; [split; [reflexivity|right; exists p; split; reflexivity]|exact E]. }
  destruct R as (data & F & E'). exists k, [a; b; c], data. repeat (split; [assumption|]). now apply decode_framed.
Qed.

(** ** Crashes *)

Lemma bytes_dec_in c (l : bytes) : In c l \/ ~ In c l.
Proof. destruct (contains_byte c l) eqn:E; [left; now apply contains_byte_spec|right; now apply contains_byte_false]. Qed.

Lemma sel_loop_panic sp : forall fuel rest acc, length rest < fuel ->
  (sel_loop fuel sp rest acc = Panic <->
   exists c t, selectors rest (c :: t) /\ (c = "+"%byte \/ c = "-"%byte) /\ length (c :: t) + sp < 5).
Proof.
  intros fuel rest acc L. split.
  - revert rest acc L. induction fuel as [|fuel IH]; intros rest acc L H; [lia|]. cbn [sel_loop] in H.
    destruct rest as [|c t]; [discriminate|]. destruct (beq c "+" || beq c "-")%bool eqn:S.
    + assert (S' : c = "+"%byte \/ c = "-"%byte) by (apply orb_true_iff in S; rewrite !beq_true in S; exact S).
      destruct (Nat.ltb_spec (length (c :: t)) 5) as [Q|Q].
      * destruct (Nat.ltb_spec (length (c :: t) + sp) 5); [|discriminate]. exists c, t. split; [constructor|]. auto.
      * apply IH in H; [|rewrite skipn_length; cbn in *; lia]. destruct H as (c' & t' & A & B & C). exists c', t'. split; [|auto].
        replace (c :: t) with (c :: firstn 4 t ++ skipn 4 t) by now rewrite firstn_skipn.
        constructor; [exact S'|apply firstn_length_le; cbn in Q; lia|exact A].
    + destruct (beq c " ") eqn:W; [|discriminate]. apply beq_true in W. subst c.
      apply IH in H; [|cbn in L; lia]. destruct H as (c' & t' & A & B & C). exists c', t'. split; [|auto]. now constructor.
  - intros (c & t & G & S & Q). remember (c :: t) as r eqn:R. revert fuel acc L.
    induction G as [r|x r G IH|c' f x r S' F G IH]; intros fuel acc L; (destruct fuel; [lia|]); cbn [sel_loop].
    + subst r. assert (X : (beq c "+" || beq c "-")%bool = true) by (destruct S as [-> | ->]; reflexivity). rewrite X.
      destruct (Nat.ltb_spec (length (c :: t)) 5); [|lia]. destruct (Nat.ltb_spec (length (c :: t) + sp) 5); [reflexivity|lia].
    + change (beq " " "+" || beq " " "-")%bool with false. change (beq " " " ") with true. cbn iota. apply IH; [assumption..|cbn in L; lia].
    + assert (X : (beq c' "+" || beq c' "-")%bool = true) by (destruct S' as [-> | ->]; reflexivity). rewrite X.
      assert (Lf : length (c' :: f ++ x) = 5 + length x) by (cbn; rewrite app_length; lia).
      rewrite Lf. cbn [Nat.ltb Nat.leb plus]. destruct f as [|f1 [|f2 [|f3 [|f4 [|]]]]]; try discriminate. cbn [app skipn].
      apply IH; [assumption..|]. cbn in L. lia.
Qed.

Lemma id_checks_iff l data : id_checks l data = Ok tt <->
  l <= length data /\ ends_line data = true /\ (l < length data -> at_ data l = " "%byte \/ at_ data l = x0a).
Proof.
  unfold id_checks. destruct (Nat.ltb_spec (length data) l) as [Q|Q]; [split; [discriminate|lia]|].
  destruct (ends_line data) eqn:E; cbn [negb]; [|split; [discriminate|intros (_ & ? & _); discriminate]].
  destruct (Nat.ltb_spec l (length data)) as [W|W]; cbn [andb].
  - destruct (beq (at_ data l) " ") eqn:A; cbn [negb andb].
    + apply beq_true in A. intuition.
    + destruct (beq (at_ data l) x0a) eqn:A'; cbn [negb].
      * apply beq_true in A'. intuition.
      * apply beq_false in A, A'. split; [discriminate|]. intros (_ & _ & X). destruct (X W); congruence.
  - intuition lia.
Qed.
Lemma id_checks_total l data : id_checks l data <> Panic.
Proof. unfold id_checks. destruct (_ <? _)%nat; [discriminate|]. destruct (negb _); [discriminate|]. destruct (_ && _ && _)%bool; discriminate. Qed.
Lemma sid_total s : sid_unmarshal s <> Panic.
Proof. unfold sid_unmarshal. destruct (_ =? _)%nat; discriminate. Qed.
Lemma sid_inv s x : sid_unmarshal s = Ok x -> x = s /\ length s = 4.
Proof. unfold sid_unmarshal. destruct (length s =? 4)%nat eqn:E; [|discriminate]. intros [= <-]. split; [reflexivity|]. now apply Nat.eqb_eq. Qed.

(** The text of a packet with one identifier *)
Lemma id_split l data : l < length data -> ends_line data = true ->
  exists x, data = firstn l data ++ at_ data l :: x /\ (x = [] /\ at_ data l = x0a \/ exists y, x = y ++ [x0a]).
Proof.
  intros L E. exists (skipn (S l) data). split.
  - rewrite <- (firstn_skipn l data) at 1. f_equal. unfold at_. clear E. revert data L. induction l; intros [|c d] L; cbn in *; try lia; [reflexivity|]. apply IHl. lia.
  - apply ends_line_iff in E. destruct E as [q ->]. rewrite app_length in L. cbn in L.
    destruct (Nat.eq_dec l (length q)) as [->|N].
    + left. split; [apply skipn_all2; rewrite app_length; cbn; lia|]. unfold at_. rewrite app_nth2 by lia. now rewrite Nat.sub_diag.
    + right. exists (skipn (S l) q). rewrite skipn_app. f_equal. replace (S l - length q) with 0 by lia. reflexivity.
Qed.

(** When decoding a packet crashes *)
Lemma decode_panic sp p : decode_packet_raw sp p = Panic <->
  exists name data id sep x c t, framed "F" name data p /\ ~ In x00 p /\ data = id ++ sep :: x ++ [x0a] /\ length id = 4 /\
    (sep = " "%byte \/ sep = x0a) /\ selectors x (c :: t) /\ (c = "+"%byte \/ c = "-"%byte) /\ length (c :: t) + 1 + sp < 5.
Proof.
  split.
  - intros H. destruct (decode_inv sp p) as (k & name & data & F & K & N & E & G); [intros e; congruence|]. rewrite H in G. symmetry in G.
    unfold unmarshal_packet in G.
    destruct (beq k "I"). { unfold info_unmarshal in G. destruct data; [discriminate|]. rewrite E in G. discriminate. }
    destruct (beq k "H"). { unfold plain_unmarshal in G. destruct data; [discriminate|]. rewrite E in G. discriminate. }
    assert (D : forall mk, direct_unmarshal mk name data <> Panic).
    { intros mk D. unfold direct_unmarshal in D. destruct (_ <? _)%nat; [discriminate|]. destruct (negb _); [discriminate|]. destruct (negb _); [discriminate|].
      destruct (_ && _ && _)%bool; [discriminate|]. apply bind_panic in D. destruct D as [D|(i & _ & D)]; [now apply sid_total in D|].
      apply bind_panic in D. destruct D as [D|(j & _ & D)]; [now apply sid_total in D|discriminate]. }
    destruct (beq k "E"). { now apply D in G. }
    destruct (beq k "D"). { now apply D in G. }
    destruct (beq k "B").
    { unfold broadcast_unmarshal in G. apply bind_panic in G. destruct G as [G|(u & _ & G)]; [now apply id_checks_total in G|].
      apply bind_panic in G. destruct G as [G|(i & _ & G)]; [now apply sid_total in G|discriminate]. }
    destruct (beq k "F") eqn:KF.
    { apply beq_true in KF. subst k. unfold feature_packet_unmarshal in G. apply bind_panic in G. destruct G as [G|([] & C & G)]; [now apply id_checks_total in G|].
      apply bind_panic in G. destruct G as [G|(i & I & G)]; [now apply sid_total in G|].
      apply bind_panic in G. destruct G as [G|([sel d] & _ & G)]; [|discriminate].
      assert (La : length (after_id 4 data) < S (length data)).
      { unfold after_id. rewrite skipn_length. assert (length (removelast data) <= length data); [|lia].
        clear. induction data as [|a [|b d] IH]; cbn in *; lia. }
      apply sel_loop_panic in G; [|exact La]. destruct G as (c & t & S & Sc & Q).
      apply id_checks_iff in C. destruct C as (C1 & _ & C2). destruct (Nat.eq_dec (length data) 4) as [L4|L4].
      { exfalso. unfold after_id in S. rewrite skipn_all2 in S.
        - inversion S.
        - apply ends_line_iff in E. destruct E as [q ->]. rewrite removelast_snoc. rewrite app_length in L4. cbn in L4. lia. }
      destruct (id_split 4 data ltac:(lia) E) as (x & X & Y). specialize (C2 ltac:(lia)).
      assert (Lf : length (firstn 4 data) = 4) by (apply firstn_length_le; lia).
      destruct Y as [[-> Y]|(y & ->)].
      + exfalso. rewrite X in S. unfold after_id in S. rewrite Y in S. rewrite removelast_snoc in S. rewrite skipn_all2 in S by lia. inversion S.
      + exists name, data, (firstn 4 data), (at_ data 4), y, c, t. repeat (split; [assumption|]).
        split; [|split; [assumption|lia]]. rewrite X in S.
        replace (firstn 4 data ++ at_ data 4 :: y ++ [x0a]) with (firstn 4 data ++ (at_ data 4 :: y) ++ [x0a]) in S by reflexivity.
        rewrite after_id_ok in S by exact Lf. exact S. }
    destruct (beq k "C"). { unfold plain_unmarshal in G. destruct data; [discriminate|]. rewrite E in G. discriminate. }
    destruct (beq k "U"); [|discriminate]. unfold udp_unmarshal in G. apply bind_panic in G. destruct G as [G|(u & _ & G)]; [now apply id_checks_total in G|].
    apply bind_panic in G. destruct G as [G|(i & _ & G)]; [|discriminate]. apply of_hash_panic in G. unfold cid_from_base32 in G.
    pose proof (from_base32_total (repeat x00 hash_size) (firstn 39 data)) as [T _].
    destruct (hash_from_base32 (repeat x00 hash_size) (firstn 39 data)) as [r h]. destruct r; cbn in *; congruence.
  - intros (name & data & id & sep & x & c & t & F & N & -> & L & Sp & Sl & Sc & Q).
    assert (E : ends_line (id ++ sep :: x ++ [x0a]) = true) by (rewrite app_comm_cons, app_assoc; apply ends_line_snoc).
    rewrite (decode_framed sp _ _ _ _ F eq_refl N E).
    change (unmarshal_packet sp "F" name (id ++ sep :: x ++ [x0a])) with (feature_packet_unmarshal sp name (id ++ sep :: x ++ [x0a])).
    unfold feature_packet_unmarshal. assert (C : id_checks 4 (id ++ sep :: x ++ [x0a]) = Ok tt).
    { apply id_checks_iff. split; [rewrite app_length; lia|]. split; [exact E|]. intros _. unfold at_. rewrite app_nth2 by lia. rewrite L. exact Sp. }
    rewrite C. cbn [bind]. rewrite firstn_id, sid_ok_unmarshal by assumption. cbn [bind].
    replace (id ++ sep :: x ++ [x0a]) with (id ++ (sep :: x) ++ [x0a]) by reflexivity. rewrite after_id_ok by assumption. cbn [tl].
    assert (P : sel_loop (S (length (id ++ (sep :: x) ++ [x0a]))) (S sp) x [] = Panic); [|now rewrite P].
    apply sel_loop_panic; [rewrite !app_length; cbn; rewrite ?app_length; lia|]. exists c, t. split; [exact Sl|]. split; [exact Sc|lia].
Qed.

(** ** The payload of a feature packet *)
Lemma sel_loop_stop sp : forall fuel rest acc sel d, sel_loop fuel sp rest acc = Ok (sel, d) ->
  match d with [] => True | c :: _ => stop c end.
Proof.
  induction fuel as [|fuel IH]; intros rest acc sel d H; [now injection H as <- <-|]. cbn [sel_loop] in H.
  destruct rest as [|c t]; [now injection H as <- <-|]. destruct (beq c "+") eqn:A; cbn [orb] in H.
  { destruct (_ <? 5)%nat; [destruct (_ <? 5)%nat; discriminate|]. now apply IH in H. }
  destruct (beq c "-") eqn:B; cbn [orb] in H.
  { destruct (_ <? 5)%nat; [destruct (_ <? 5)%nat; discriminate|]. now apply IH in H. }
  destruct (beq c " ") eqn:C; [now apply IH in H|]. injection H as <- <-. apply beq_false in A, B, C. repeat split; assumption.
Qed.

Lemma feature_payload sp p id sel t c d : decode_packet_raw sp p = Ok (PFeature id sel (ARaw t (c :: d))) -> stop c.
Proof.
  intros H. destruct (decode_inv sp p) as (k & name & data & F & K & N & E & G); [intros e; congruence|]. rewrite H in G. symmetry in G.
  unfold unmarshal_packet in G. unfold info_unmarshal, plain_unmarshal, broadcast_unmarshal, udp_unmarshal in G.
  assert (D : forall mk, direct_unmarshal mk name data = Ok (PFeature id sel (ARaw t (c :: d))) -> exists i j m, mk i j m = PFeature id sel (ARaw t (c :: d))).
  { intros mk D. unfold direct_unmarshal in D. destruct (_ <? _)%nat; [discriminate|]. destruct (negb _); [discriminate|]. destruct (negb _); [discriminate|].
    destruct (_ && _ && _)%bool; [discriminate|]. apply bind_ok in D. destruct D as (i & _ & D). apply bind_ok in D. destruct D as (j & _ & D).
    injection D as D. eauto. }
  destruct (beq k "I"). { destruct data; [discriminate|]. destruct (ends_line _); discriminate. }
  destruct (beq k "H"). { destruct data; [discriminate|]. destruct (ends_line _); discriminate. }
  destruct (beq k "E"). { apply D in G. destruct G as (? & ? & ? & G). discriminate. }
  destruct (beq k "D"). { apply D in G. destruct G as (? & ? & ? & G). discriminate. }
  destruct (beq k "B"). { apply bind_ok in G. destruct G as (u & _ & G). apply bind_ok in G. destruct G as (i & _ & G). discriminate. }
  destruct (beq k "F").
  { unfold feature_packet_unmarshal in G. apply bind_ok in G. destruct G as (u & _ & G). apply bind_ok in G. destruct G as (i & _ & G).
    apply bind_ok in G. destruct G as ([s x] & G & Z). injection Z as _ _ _ ->. now apply sel_loop_stop in G. }
  destruct (beq k "C"). { destruct data; [discriminate|]. destruct (ends_line _); discriminate. }
  destruct (beq k "U"); [|discriminate]. apply bind_ok in G. destruct G as (u & _ & G). apply bind_ok in G. destruct G as (i & _ & G). discriminate.
Qed.

(** ** Identifiers *)

Lemma skipn_framed k name data p : framed k name data p -> (forall d, data <> x0a :: d) -> skipn 5 p = data.
Proof.
  intros [L F] N. destruct name as [|a [|b [|c [|]]]]; try discriminate. destruct F as [->|(d & -> & _)]; [reflexivity|]. now elim (N d).
Qed.

Lemma nl_last q a b : ~ In x0a q -> q ++ [x0a] = a ++ x0a :: b -> b = [] /\ a = q.
Proof.
  intros N H. destruct b as [|c b _] using rev_ind.
  - apply app_inj_tail in H. now destruct H.
  - exfalso. rewrite app_comm_cons, app_assoc in H. apply app_inj_tail in H. destruct H as [H _]. apply N. rewrite H. apply in_or_app. right. now left.
Qed.

Lemma decoded_sids sp q p : ~ In x0a q -> decode_packet_raw sp (q ++ [x0a]) = Ok p ->
  match sids p with
  | [] => True
  | [id] => id = firstn 4 (skipn 5 (q ++ [x0a])) /\ 4 <= length (skipn 5 (q ++ [x0a]))
  | id :: to :: _ => id = firstn 4 (skipn 5 (q ++ [x0a])) /\ to = firstn 4 (skipn 10 (q ++ [x0a])) /\ 4 <= length (skipn 10 (q ++ [x0a]))
  end.
Proof.
  intros NQ H. destruct (decode_inv sp (q ++ [x0a])) as (k & name & data & F & K & N & E & G); [intros e; congruence|]. rewrite H in G. symmetry in G.
  assert (ND : 4 <= length data -> forall d, data <> x0a :: d).
  { intros L d ->. destruct F as [_ [F|(d' & _ & F)]].
    - destruct (nl_last q (k :: name ++ [" "%byte]) d NQ) as [-> _]; [cbn [app]; rewrite <- app_assoc; exact F|]. cbn in L. lia.
    - destruct (nl_last q (k :: name) d NQ F) as [-> _]. cbn in L. lia. }
  assert (SK : 4 <= length data -> skipn 5 (q ++ [x0a]) = data) by (intros L; apply (skipn_framed k name data); auto).
  unfold unmarshal_packet in G.
  destruct (beq k "I"). { unfold info_unmarshal in G. destruct data; [discriminate|]. destruct (ends_line _); [|discriminate]. injection G as <-. exact Logic.I. }
  destruct (beq k "H"). { unfold plain_unmarshal in G. destruct data; [discriminate|]. destruct (ends_line _); [|discriminate]. injection G as <-. exact Logic.I. }
  assert (D : forall mk, direct_unmarshal mk name data = Ok p -> exists i j m, p = mk i j m /\ i = firstn 4 data /\ j = firstn 4 (skipn 5 data) /\ 9 <= length data).
  { intros mk D. unfold direct_unmarshal in D. destruct (Nat.ltb_spec (length data) 9); [discriminate|]. destruct (negb _); [discriminate|]. destruct (negb _); [discriminate|].
    destruct (_ && _ && _)%bool; [discriminate|]. apply bind_ok in D. destruct D as (i & I & D). apply bind_ok in D. destruct D as (j & J & D).
    apply sid_inv in I, J. injection D as <-. destruct I as [-> _], J as [-> _]. do 3 eexists. repeat split; assumption. }
  assert (SK2 : 9 <= length data -> skipn 10 (q ++ [x0a]) = skipn 5 data).
  { intros L. rewrite <- SK by lia. set (z := q ++ [x0a]) in *. clearbody z. clear. do 10 (destruct z as [|? z]; [reflexivity|]). reflexivity. }
  destruct (beq k "E").
  { apply D in G. destruct G as (i & j & m & -> & -> & -> & L). cbn [sids]. rewrite SK, SK2 by lia. rewrite skipn_length. repeat split. lia. }
  destruct (beq k "D").
  { apply D in G. destruct G as (i & j & m & -> & -> & -> & L). cbn [sids]. rewrite SK, SK2 by lia. rewrite skipn_length. repeat split. lia. }
  destruct (beq k "B").
  { unfold broadcast_unmarshal in G. apply bind_ok in G. destruct G as ([] & C & G). apply bind_ok in G. destruct G as (i & I & G). injection G as <-.
    apply id_checks_iff in C. destruct C as [C _]. apply sid_inv in I. destruct I as [-> _]. cbn [sids]. rewrite SK by assumption. auto. }
  destruct (beq k "F").
  { unfold feature_packet_unmarshal in G. apply bind_ok in G. destruct G as ([] & C & G). apply bind_ok in G. destruct G as (i & I & G).
    apply bind_ok in G. destruct G as ([s d] & _ & G). injection G as <-.
    apply id_checks_iff in C. destruct C as [C _]. apply sid_inv in I. destruct I as [-> _]. cbn [sids]. rewrite SK by assumption. auto. }
  destruct (beq k "C"). { unfold plain_unmarshal in G. destruct data; [discriminate|]. destruct (ends_line _); [|discriminate]. injection G as <-. exact Logic.I. }
  destruct (beq k "U"); [|discriminate]. unfold udp_unmarshal in G. apply bind_ok in G. destruct G as (u & _ & G). apply bind_ok in G. destruct G as (i & _ & G).
  injection G as <-. exact Logic.I.
Qed.

(** A part of a line contains the delimiter exactly if it is the end of the line *)
Lemma part_newline q i : ~ In x0a q -> i + 4 <= length (q ++ [x0a]) -> (In x0a (firstn 4 (skipn i (q ++ [x0a]))) <-> length (q ++ [x0a]) = i + 4).
Proof.
  intros N L. split.
  - intros I. destruct (Nat.eq_dec (length (q ++ [x0a])) (i + 4)) as [Q|Q]; [exact Q|]. exfalso. apply N.
    rewrite app_length in *. cbn [length] in *. rewrite skipn_app in I. replace (i - length q) with 0 in I by lia. cbn [skipn] in I.
    rewrite firstn_app in I. rewrite skipn_length in I. replace (4 - (length q - i)) with 0 in I by lia. cbn [firstn] in I. rewrite app_nil_r in I.
    assert (J : In x0a (skipn i q)) by (rewrite <- (firstn_skipn 4 (skipn i q)); apply in_or_app; now left).
    rewrite <- (firstn_skipn i q). apply in_or_app. now right.
  - intros Q. rewrite firstn_all2 by (rewrite skipn_length; lia). rewrite app_length in Q. cbn in Q. rewrite skipn_app.
    apply in_or_app. right. replace (i - length q) with 0 by lia. now left.
Qed.

(** ** One line *)

Lemma value_no_nl k v : quiet k v -> ~ In x0a (marshal_value k v).
Proof.
  induction k; cbn [marshal_value quiet val] in *; intros C.
  - apply escape_no_nl.
  - intros I. apply format_int_plain in I. tauto.
  - destruct v; cbn; intuition discriminate.
  - exact C.
  - now apply hash_text_not.
  - now apply hash_text_not.
  - intros I. apply in_join in I. destruct I as [I|(f & F & I)]; [cbn in I; intuition discriminate|].
    rewrite Forall_forall in C. exact (C f F I).
  - intros I. apply in_join in I. destruct I as [I|(e & E & I)]; [cbn in I; intuition discriminate|].
    apply in_map_iff in E. destruct E as (x & <- & _). exact (escape_no_nl _ I).
  - intros [].
  - destruct v as [x|]; [now apply IHk|intros []].
Qed.

Lemma field_words_no_nl f v w : ~ In x0a (f_tag f) -> quiet (f_kind f) v -> In w (field_words f v) -> ~ In x0a w.
Proof.
  intros T Q I. unfold field_words in I. destruct (_ && _ && _)%bool; [destruct I|].
  assert (W : forall t, ~ In x0a t -> ~ In x0a (word f t)).
  { intros t N J. unfold word in J. apply in_app_or in J. destruct J as [J|J]; [|tauto]. destruct (bytes_eqb _ _); [destruct J|tauto]. }
  destruct f as [n t rq k]. cbn [f_kind] in *.
  assert (V := value_no_nl k v Q).
  destruct k; try (destruct I as [<-|[]]; apply W; exact V).
  apply in_map_iff in I. destruct I as (x & <- & _). apply W, escape_no_nl.
Qed.

Lemma struct_no_nl fs : forall v, forallb (fun f => negb (contains_byte x0a (f_tag f))) fs = true -> quiet_all fs v ->
  ~ In x0a (marshal_struct fs v).
Proof.
  intros v T Q. rewrite marshal_struct_words. intros I. apply in_join in I. destruct I as [I|(w & W & I)]; [cbn in I; intuition discriminate|].
  revert I. clear - T Q W. induction fs as [|f r IH]; [destruct W|]. cbn [forallb] in T. apply andb_true_iff in T as [T T'].
  destruct Q as [Q Q']. cbn [struct_words] in W. apply in_app_or in W. destruct W as [W|W].
  - apply (field_words_no_nl f (fst v)); try assumption. now apply contains_byte_false, negb_true_iff.
  - now apply (IH (snd v)).
Qed.


Lemma marshal_no_nl m : quiet_message m -> ~ In x0a (marshal m).
Proof.
  assert (S : ~ In x0a (B " ")) by (cbn; intuition discriminate).
  assert (FI : forall z, ~ In x0a (format_int z)) by (intros z I; apply format_int_plain in I; tauto).
  assert (FG : forall g, ~ In x0a (get_marshal g)).
  { intros g I. unfold get_marshal in I. repeat (apply in_app_or in I; destruct I as [I|I]); try (now apply escape_no_nl in I); try tauto; try (now apply FI in I).
    destruct (g_comp g); [cbn in I; intuition discriminate|destruct I]. }
  destruct m; cbn [quiet_message marshal]; intros Q I.
  - revert I. apply struct_no_nl; [destruct t; vm_compute; reflexivity|exact Q].
  - unfold modfeatures_marshal in I. apply in_join in I. destruct I as [I|(w & W & I)]; [tauto|]. apply in_map_iff in W. destruct W as ([f st] & <- & W).
    rewrite Forall_forall in Q. apply in_app_or in I. destruct I as [I|I]; [destruct st; cbn in I; intuition discriminate|exact (Q _ W I)].
  - unfold status_marshal in I. repeat (apply in_app_or in I; destruct I as [I|I]); try (now apply escape_no_nl in I); try tauto; try (now apply FI in I).
    unfold fmt_02d in I. destruct (_ <? _)%nat; [destruct I as [I|I]; [discriminate|]|]; now apply FI in I.
  - destruct I.
  - destruct I.
  - tauto.
  - unfold gpa_marshal in I. change (b32_encode salt) with (hash_base32 salt) in I. revert I. now apply hash_text_not.
  - now apply FG in I.
  - now apply FG in I.
  - unfold fields_marshal in I. apply in_join in I. destruct I as [I|(w & W & I)]; [tauto|]. apply in_map_iff in W. destruct W as ([t v] & <- & W).
    rewrite Forall_forall in Q. apply in_app_or in I. destruct I as [I|I]; [exact (Q _ W I)|now apply escape_no_nl in I].
  - tauto.
Qed.

Lemma cmd_no_nl m : quiet_message m -> ~ In x0a (cmd m).
Proof. destruct m; cbn [quiet_message cmd]; intros Q; try (destruct t); try (cbn; intuition discriminate). Qed.

Lemma packet_line p : quiet_message (message p) -> quiet_parts p -> exists q, marshal_packet p = q ++ [x0a] /\ ~ In x0a q.
Proof.
  intros Q P. rewrite marshal_form. exists (kind_of p :: cmd (message p) ++ header' p ++ tail_of p). split.
  { cbn [app]. now rewrite <- !app_assoc. }
  assert (H : ~ In x0a (header p)).
  { assert (S : ~ In x0a (B " ")) by (cbn; intuition discriminate).
    assert (HT : forall h, ~ In x0a (hash_base32 h)) by (intros h; now apply hash_text_not).
    clear Q. destruct p; cbn [header quiet_parts] in *; intros I; repeat (apply in_app_or in I; destruct I as [I|I]); try tauto; try (exact (HT _ I)).
    apply in_flat_map in I. destruct I as (s & X & I). destruct P as [_ P]. rewrite Forall_forall in P. specialize (P s X).
    unfold selector in I. destruct I as [I|I]; [destruct (snd s); discriminate|]. apply in_app_or in I. tauto. }
  rewrite header_sp in H. intros I. destruct I as [I|I]; [destruct p; discriminate|]. apply in_app_or in I. destruct I as [I|I]; [now apply cmd_no_nl in I|].
  apply in_app_or in I. destruct I as [I|I]; [apply H, in_or_app; now left|].
  unfold tail_of in I. pose proof (marshal_no_nl _ Q) as M. destruct (marshal (message p)); [destruct I|]. destruct I as [I|I]; [discriminate|tauto].
Qed.
