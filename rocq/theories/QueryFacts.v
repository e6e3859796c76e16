(** Lemmas about URL queries. *)
From Verif Require Import Base BaseFacts Query SpecQuery.

Lemma hex_value_of c n : hex_of c n -> hex_value c = Some n.
Proof.
  intros H. assert (D : (n < 16)%N) by (destruct H as [[? _]|[? _]]; lia).
  assert (C : In n [0;1;2;3;4;5;6;7;8;9;10;11;12;13;14;15]%N) by (cbn; lia).
  cbn in C. repeat (destruct C as [<-|C]; [destruct H as [[? ->]|[? [->| ->]]]; try lia; reflexivity|]). contradiction.
Qed.
Lemma of_hex_value c n : hex_value c = Some n -> hex_of c n.
Proof.
  unfold hex_value, hex_of. intros H.
  destruct ((48 <=? b2n c) && (b2n c <=? 57))%N%bool eqn:E1; [|destruct ((97 <=? b2n c) && (b2n c <=? 102))%N%bool eqn:E2; [|destruct ((65 <=? b2n c) && (b2n c <=? 70))%N%bool eqn:E3; [|discriminate]]];
    injection H as <-; rewrite Bool.andb_true_iff, !N.leb_le in *.
  - left. split; [lia|]. replace (48 + (b2n c - 48))%N with (b2n c) by lia. now rewrite n2b_b2n.
  - right. split; [lia|]. right. replace (97 + (b2n c - 87 - 10))%N with (b2n c) by lia. now rewrite n2b_b2n.
  - right. split; [lia|]. left. replace (65 + (b2n c - 55 - 10))%N with (b2n c) by lia. now rewrite n2b_b2n.
Qed.

Lemma form_unescape s e : form s e -> query_unescape e = Some s.
Proof.
  induction 1 as [|c s e Hn _ IH|s e _ IH|c a b s e Ha Hb _ IH]; cbn [query_unescape].
  - reflexivity.
  - destruct (beq_spec c "%"%byte) as [->|_]; [destruct Hn; cbn; auto|]. destruct (beq_spec c "+"%byte) as [->|_]; [destruct Hn; cbn; auto|]. now rewrite IH.
  - change (beq "+" "%") with false. cbv iota. now rewrite IH.
  - change (beq "%" "%") with true. cbv iota. rewrite (hex_value_of _ _ Ha), (hex_value_of _ _ Hb), IH. cbn. do 2 f_equal.
    rewrite <- (n2b_b2n c) at 3. f_equal. exact (eq_sym (N.div_mod' (b2n c) 16)).
Qed.
Lemma hex_of_plain c n : hex_of c n -> ~ In c special.
Proof.
  intros H. assert (D : (n < 16)%N) by (destruct H as [[? _]|[? _]]; lia).
  assert (C : In n [0;1;2;3;4;5;6;7;8;9;10;11;12;13;14;15]%N) by (cbn; lia).
  cbn in C. repeat (destruct C as [<-|C]; [destruct H as [[? ->]|[? [->| ->]]]; try lia; cbn; intros K; repeat (destruct K as [K|K]; [discriminate|]); exact K|]). contradiction.
Qed.
Lemma form_bytes s e : form s e -> forall c, In c e -> In c special -> c = "%"%byte \/ c = "+"%byte.
Proof.
  induction 1 as [|c s e Hn _ IH|s e _ IH|c a b s e Ha Hb _ IH]; intros x Hx Hs; [contradiction|..].
  - destruct Hx as [->|Hx]; [contradiction|auto].
  - destruct Hx as [<-|Hx]; [now right|auto].
  - destruct Hx as [<-|[<-|[<-|Hx]]]; [now left| | |auto]; exfalso; [exact (hex_of_plain _ _ Ha Hs)|exact (hex_of_plain _ _ Hb Hs)].
Qed.
Lemma form_avoids s e c : form s e -> In c special -> c <> "%"%byte -> c <> "+"%byte -> ~ In c e.
Proof. intros H Hc N1 N2 K. destruct (form_bytes _ _ H _ K Hc); contradiction. Qed.
Lemma form_nil s : form s [] -> s = []. Proof. intros H. now inversion H. Qed.

Lemma parameter_pair kv p : parameter kv p -> query_pair p = Some kv.
Proof.
  intros H. destruct H as [k v ek ev H1 H2|k ek H1 Hk]; unfold query_pair.
  - destruct (ek ++ B "=" ++ ev) as [|x t] eqn:E; [destruct ek; discriminate|]. rewrite <- E. cbv zeta.
    change (B "=" ++ ev) with ("="%byte :: ev). rewrite cut_app by (eapply form_avoids; [exact H1|cbn; tauto|discriminate..]). cbn [fst snd].
    now rewrite (form_unescape _ _ H1), (form_unescape _ _ H2).
  - destruct ek as [|x t]; [apply form_nil in H1; contradiction|]. cbv zeta.
    assert (E : cut "=" (x :: t) = None) by (apply cut_none; eapply form_avoids; [exact H1|cbn; tauto|discriminate..]). rewrite E. cbn [fst snd].
    now rewrite (form_unescape _ _ H1).
Qed.
Lemma parameter_avoids kv p c : parameter kv p -> c = "&"%byte \/ c = ";"%byte -> ~ In c p.
Proof.
  intros H Hc. assert (F : forall s e, form s e -> ~ In c e) by (intros s e K; eapply form_avoids; [exact K|destruct Hc as [->| ->]; cbn; tauto|destruct Hc as [->| ->]; discriminate..]).
  destruct H as [k v ek ev H1 H2|k ek H1 Hk]; [|exact (F _ _ H1)]. intros K. apply in_app_iff in K. destruct K as [K|K]; [exact (F _ _ H1 K)|].
  apply in_app_iff in K. destruct K as [K|K]; [|exact (F _ _ H2 K)]. destruct K as [<-|[]]. destruct Hc; discriminate.
Qed.

(** Parts without separators. *)
Lemma parts_join semi l : Forall (fun p => ~ In "&"%byte p /\ ~ In ";"%byte p) l -> l <> [] -> query_parts semi (join (B "&") l) = l.
Proof.
  intros H Hl. unfold query_parts.
  assert (NS : ~ In ";"%byte (join (B "&") l)).
  { intros K. apply join_in in K. destruct K as [K|(x & K1 & K2)]; [cbn in K; intuition discriminate|]. rewrite Forall_forall in H. now apply (H x K1). }
  assert (SP : split_byte "&" (join (B "&") l) = l).
  { apply split_byte_join; [exact Hl|]. intros x Hx. rewrite Forall_forall in H. now apply H. }
  destruct semi.
  - assert (E : map (fun c => if beq c ";" then "&"%byte else c) (join (B "&") l) = join (B "&") l); [|now rewrite E].
    revert NS. generalize (join (B "&") l). clear. intros b. induction b as [|c b IH]; intros NS; [reflexivity|]. cbn [map].
    destruct (beq_spec c ";"%byte) as [->|_]; [destruct NS; now left|]. f_equal. apply IH. intros K. apply NS. now right.
  - rewrite SP. clear - H. induction H as [|p l [_ H] _ IH]; [reflexivity|]. cbn [filter]. rewrite IH.
    assert (E : contains_byte ";" p = false); [|now rewrite E]. unfold contains_byte. apply Bool.not_true_is_false. intros K. apply existsb_exists in K.
    destruct K as (x & K1 & K2). destruct (beq_spec x ";"%byte) as [->|]; [contradiction|discriminate].
Qed.
Definition pairs_of (l : list bytes) : list (bytes * bytes) := flat_map (fun p => match query_pair p with Some kv => [kv] | None => [] end) l.
Lemma query_join semi l : Forall (fun p => ~ In "&"%byte p /\ ~ In ";"%byte p) l -> query semi (join (B "&") l) = pairs_of l.
Proof.
  intros H. destruct l as [|p l]; [now destruct semi|]. unfold query. rewrite parts_join; [reflexivity|exact H|discriminate].
Qed.
Lemma pairs_parameters ps l : Forall2 parameter ps l -> pairs_of l = ps.
Proof. induction 1 as [|kv p ps l H _ IH]; [reflexivity|]. cbn [pairs_of flat_map]. rewrite (parameter_pair _ _ H). cbn. f_equal. exact IH. Qed.
Lemma parameters_avoid ps l : Forall2 parameter ps l -> Forall (fun p => ~ In "&"%byte p /\ ~ In ";"%byte p) l.
Proof. induction 1 as [|kv p ps l H _ IH]; constructor; [|exact IH]. split; eapply parameter_avoids; eauto. Qed.
Lemma first_get name ps v : first_of name ps v -> query_get name ps = v.
Proof.
  unfold query_get. induction 1 as [|v l|k w l v Hk _ IH]; cbn [find fst snd]; [reflexivity| |].
  - now rewrite bytes_eqb_refl.
  - destruct (bytes_eqb k name) eqn:E; [apply bytes_eqb_true in E; contradiction|exact IH].
Qed.

Theorem query_lookup semi ps l v : Forall2 parameter ps l -> first_of (B "kp") ps v -> keyprint_from_url semi (join (B "&") l) = v.
Proof.
  intros H F. unfold keyprint_from_url. rewrite query_join by (eapply parameters_avoid; eauto). rewrite (pairs_parameters _ _ H). exact (first_get _ _ _ F).
Qed.

(** Broken parameters. *)
Lemma unescape_broken a t : ~ In "%"%byte a -> (forall x y r n m, t = x :: y :: r -> hex_of x n -> hex_of y m -> False) -> query_unescape (a ++ "%"%byte :: t) = None.
Proof.
  intros Ha Ht. induction a as [|c a IH]; cbn [app query_unescape].
  - change (beq "%" "%") with true. cbv iota. destruct t as [|x [|y r]]; try reflexivity.
    destruct (hex_value x) as [n|] eqn:E1; [|reflexivity]. destruct (hex_value y) as [m|] eqn:E2; [|reflexivity].
    exfalso. eapply Ht; [reflexivity|apply of_hex_value; exact E1|apply of_hex_value; exact E2].
  - destruct (beq_spec c "%"%byte) as [->|_]; [destruct Ha; now left|]. rewrite IH; [reflexivity|]. intros K. apply Ha. now right.
Qed.
Lemma broken_dropped p : broken p -> query_pair p = None.
Proof.
  intros (_ & _ & a & t & -> & Ha & Ht). unfold query_pair. destruct (a ++ "%"%byte :: t) as [|x r] eqn:E; [reflexivity|]. rewrite <- E. clear x r E. cbv zeta.
  destruct (cut "=" (a ++ "%"%byte :: t)) as [[k v]|] eqn:C; cbn [fst snd]; [|now rewrite unescape_broken].
  apply cut_spec in C. destruct C as [C Hk].
  assert (D : (exists v1, a = k ++ "="%byte :: v1 /\ v = v1 ++ "%"%byte :: t) \/ exists t1, k = a ++ "%"%byte :: t1 /\ t = t1 ++ "="%byte :: v).
  { clear Ha Ht Hk. revert k C. induction a as [|c a IH]; intros k C; cbn [app] in C.
    - destruct k as [|c k]; [discriminate|]. injection C as <- ->. right. now exists k.
    - destruct k as [|c' k]; cbn [app] in C; injection C as <- C.
      + left. exists a. auto.
      + destruct (IH k C) as [(v1 & -> & ->)|(t1 & -> & ->)]; [left; now exists v1|right; now exists t1]. }
  destruct D as [(v1 & -> & ->)|(t1 & -> & ->)].
  - assert (U : query_unescape (v1 ++ "%"%byte :: t) = None). { apply unescape_broken; [|exact Ht]. intros K. apply Ha. apply in_app_iff. right. now right. }
    rewrite U. now destruct (query_unescape k).
  - rewrite unescape_broken; [reflexivity|exact Ha|]. intros x y r n m -> Hx Hy. exact (Ht x y _ n m eq_refl Hx Hy).
Qed.
Theorem query_broken semi a p b : Forall (fun q => ~ In "&"%byte q /\ ~ In ";"%byte q) (a ++ b) -> broken p ->
  keyprint_from_url semi (join (B "&") (a ++ p :: b)) = keyprint_from_url semi (join (B "&") (a ++ b)).
Proof.
  intros H Hp. unfold keyprint_from_url. rewrite !query_join; [|exact H|].
  - f_equal. unfold pairs_of. rewrite !flat_map_app. cbn [flat_map]. now rewrite (broken_dropped _ Hp).
  - apply Forall_app in H. destruct H as [H1 H2]. apply Forall_app. split; [exact H1|]. constructor; [|exact H2]. destruct Hp as (K1 & K2 & _). auto.
Qed.
