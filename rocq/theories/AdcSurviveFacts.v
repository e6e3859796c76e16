(** Lemmas about the ADC messages and packets which arrive. *)
From Verif Require Import Base BaseFacts Num NumFacts NumSpec SpecText Base32 Base32Facts Tiger SpecHash TigerFacts.
From Verif Require Import AdcText SpecAdc AdcTextFacts AdcValue AdcValueFacts AdcMessage AdcMessageFacts AdcCustomFacts AdcPacket AdcPacketFacts.
From Verif Require Import SpecAdcMessage SpecAdcRead SpecAdcRelay AdcReadFacts AdcReadPackets AdcExtFacts AdcStreamFacts AdcRelayFacts SpecAdcReader SpecAdcWrite SpecAdcSurvive AdcWriteFacts.

Section Survive.
Variable pf : bytes -> float_result.
Hypothesis PF : converts pf.

Lemma struct_arrives t v : unmarshal_struct pf (fields_of t) (marshal (AStruct t v)) (zeros (fields_of t)) = Ok v <-> carries_all (fields_of t) v.
Proof.
  split.
  - intros H. apply (struct_iff pf t _ _ _ _ (split_separated _) (zeros_sized _)) in H.
    apply (struct_carries pf PF t (split_byte " " (marshal (AStruct t v)))); [apply (split_separated (marshal (AStruct t v)))|exact H].
  - intros C. pose proof (message_roundtrip pf t v C) as R. cbn [unmarshal new_struct] in R. apply bind_ok in R as (v' & R & E). rewrite R.
    injection E as E. now apply (Eqdep_dec.inj_pair2_eq_dec) in E; [subst|decide equality].
Qed.
Lemma status_arrives st : status_unmarshal (status_marshal st) = Ok st <-> message_fits (ASta st).
Proof.
  cbn [message_fits]. split.
  - intros H. apply status_decoded in H. assert (K := H). destruct K as (h & tl & n & _ & _ & _ & R & _ & Q & M).
    apply (status_survives st n R Q M) in H. pose proof (Z.quot_rem' n 100) as E. rewrite <- Q, <- M in E. rewrite <- E.
    assert (B1 : (Z.abs (Z.rem n 100) < 100)%Z) by (apply Z.rem_bound_abs; lia). rewrite <- M in B1. split; [|exact R].
    destruct (Z.le_gt_cases 0 (st_sev st)) as [L|L]; [left; lia|right]. split; [exact L|]. destruct (Z.le_gt_cases 0 n) as [P|P]; [pose proof (Z.quot_pos n 100 P); lia|].
    pose proof (Z.rem_nonpos n 100). lia.
  - intros [C R]. apply status_decoded. apply (status_survives st (100 * st_sev st + st_code st) R); [| |lia].
    + destruct C as [C|[C1 C2]]; [|rewrite C2].
      * rewrite Z.quot_div_nonneg by lia. rewrite Z.mul_comm, Z.div_add_l by lia. rewrite Z.div_small by lia. lia.
      * rewrite Z.add_0_r, Z.mul_comm. now rewrite Z.quot_mul by lia.
    + destruct C as [C|[C1 C2]]; [|rewrite C2].
      * rewrite Z.rem_mod_nonneg by lia. rewrite Z.add_comm, Z.mul_comm, Z.mod_add by lia. now rewrite Z.mod_small by lia.
      * rewrite Z.add_0_r, Z.mul_comm. now rewrite Z.rem_mul by lia.
Qed.
Lemma fields_loop_shape sub l : fields_loop sub = Ok l -> Forall (fun f => length (fst f) = 2) l /\ map (fun f => fst f ++ snd f) l = sub.
Proof.
  revert l. induction sub as [|s sub IH]; intros l H; cbn [fields_loop] in H; [injection H as <-; now split|].
  destruct s as [|a [|b v]]; try discriminate. apply bind_ok in H as (l' & H & E). injection E as <-. destruct (IH l' H) as [F <-]. split; [now constructor|reflexivity].
Qed.
Lemma mod_arrives l : fields_unmarshal (fields_marshal l) = Ok l <-> message_fits (AMod l).
Proof.
  cbn [message_fits]. split.
  - intros H. assert (P : Forall (fun f => length (fst f) = 2 /\ ~ In " "%byte (fst f)) l).
    { unfold fields_unmarshal in H. destruct (fields_marshal l) as [|b b0] eqn:E; [injection H as <-; constructor|].
      apply fields_loop_shape in H as [F M]. rewrite Forall_forall in *. intros f Hf. split; [now apply F|]. intros J.
      assert (S : In (fst f ++ snd f) (split_byte " " (b :: b0))) by (rewrite <- M; now apply (in_map (fun f => fst f ++ snd f))).
      destruct (split_separated (b :: b0)) as (_ & W & _). rewrite Forall_forall in W. apply (W _ S). apply in_or_app. now left. }
    rewrite (fields_decoded l P) in H. injection H as H. clear - H P. induction l as [|[t v] l IH]; [constructor|]. cbn [map fst snd] in H. injection H as H H'. inversion P; subst.
    constructor; [|now apply IH]. cbn [fst snd] in *. apply escape_same in H. tauto.
  - intros F. rewrite fields_decoded.
    + f_equal. induction F as [|[t v] l A _ IH]; [reflexivity|]. cbn [map fst snd] in *. rewrite IH. destruct A as (_ & _ & A). apply escape_same in A. now rewrite A.
    + apply Forall_forall. intros f Hf. rewrite Forall_forall in F. specialize (F f Hf). tauto.
Qed.
Lemma sup_arrives f : (exists f', modfeatures_unmarshal pf (modfeatures_marshal f) [] = Ok f' /\ distinct f /\ distinct f' /\ forall k b, In (k, b) f <-> In (k, b) f') <-> message_fits (ASup f).
Proof.
  rewrite (sup_iff pf _ (split_byte " " (modfeatures_marshal f)) f (split_separated _)). cbn [message_fits]. split.
  - intros F. destruct (features_length _ _ F) as [D L]. split; [exact D|]. pose proof (proj1 (sup_plain f D L) (ex_intro _ _ (conj (split_separated _) F))) as P.
    cbn [survives] in P. rewrite Forall_forall in *. intros e He. split; [now apply L|now apply P].
  - intros [D F]. assert (L : forall e, In e f -> length (fst e) = 4) by (rewrite Forall_forall in F; intros e He; now apply F).
    destruct (proj2 (sup_plain f D L)) as (ws & W & R).
    + cbn [survives]. rewrite Forall_forall in *. intros e He. now apply F.
    + rewrite (separated_split _ _ W). exact R.
Qed.
Lemma get_arrives g : get_unmarshal new_get (get_marshal g) = Ok g <-> int64 (g_start g) /\ int64 (g_bytes g).
Proof.
  split.
  - intros H. apply (get_iff _ g new_get eq_refl) in H. destruct H as (t & p & a & b & tl & _ & _ & _ & _ & _ & _ & _ & _ & R1 & _ & R2 & _). now split.
  - intros [R1 R2]. rewrite get_roundtrip by assumption. cbn [new_get g_comp]. rewrite orb_false_r. now destruct g.
Qed.

(** ** Messages *)
Lemma message_arrives m : (exists m', unmarshal pf (marshal m) (new_like m) = Ok m' /\ same_message m m') <-> message_fits m.
Proof.
  assert (EQ : (forall f, m <> ASup f) -> ((exists m', unmarshal pf (marshal m) (new_like m) = Ok m' /\ same_message m m') <-> unmarshal pf (marshal m) (new_like m) = Ok m)).
  { intros N. split; [intros (m' & H & Q); apply (same_refl m N) in Q; now subst|]. intros H. exists m. split; [exact H|]. now apply (same_refl m N). }
  destruct m as [t v|f|st| | |s|s|g|g|l|t d]; try (rewrite EQ by discriminate); cbn [unmarshal new_like].
  - cbn [message_fits]. rewrite <- struct_arrives. split; [|intros ->; reflexivity]. intros H. apply bind_ok in H as (v' & H & E). rewrite H. injection E as E.
    now apply (Eqdep_dec.inj_pair2_eq_dec) in E; [subst|decide equality].
  - rewrite <- (sup_arrives f). cbn [marshal]. split.
    + intros (m' & H & Q). apply bind_ok in H as (f' & H & E). injection E as <-. exists f'. split; [exact H|exact Q].
    + intros (f' & H & Q). rewrite H. cbn [bind]. exists (ASup f'). split; [reflexivity|exact Q].
  - rewrite <- status_arrives. cbn [marshal]. split; [|intros ->; reflexivity]. intros H. apply bind_ok in H as (v' & H & E). rewrite H. now injection E as ->.
  - cbn. tauto.
  - cbn. tauto.
  - cbn [marshal message_fits]. unfold sid_unmarshal. destruct (length s =? 4) eqn:E; [apply Nat.eqb_eq in E; tauto|apply Nat.eqb_neq in E]. split; [discriminate|congruence].
  - cbn [marshal message_fits]. rewrite gpa_roundtrip. cbn [bind]. tauto.
  - cbn [message_fits]. rewrite <- (get_arrives g). cbn [marshal]. change {| g_type := []; g_path := []; g_start := 0; g_bytes := 0; g_comp := false |} with new_get. split; [|intros ->; reflexivity]. intros H. apply bind_ok in H as (v' & H & E). rewrite H. now injection E as ->.
  - cbn [message_fits]. rewrite <- (get_arrives g). cbn [marshal]. change {| g_type := []; g_path := []; g_start := 0; g_bytes := 0; g_comp := false |} with new_get. split; [|intros ->; reflexivity]. intros H. apply bind_ok in H as (v' & H & E). rewrite H. now injection E as ->.
  - rewrite <- mod_arrives. cbn [marshal]. split; [|intros ->; reflexivity]. intros H. apply bind_ok in H as (v' & H & E). rewrite H. now injection E as ->.
  - cbn. tauto.
Qed.
Lemma registered_new m : told m -> (forall t d, m <> ARaw t d) -> registered (cmd m) = Some (new_like m).
Proof. intros T N. destruct m as [t v|f|st| | |s|s|g|g|l|t d]; cbn [told] in T; try reflexivity; try contradiction; [destruct t; try reflexivity; contradiction|now elim (N t d)]. Qed.
Lemma told_raw t d : told (ARaw t d) -> registered t = None.
Proof. intros [A C]. now apply registered_none. Qed.
Lemma told_new m s : told m -> unmarshal_message pf (cmd m) s = unmarshal pf s (new_like m).
Proof.
  intros T. unfold unmarshal_message. destruct (registered (cmd m)) as [m0|] eqn:E.
  - destruct m as [t v|f|st| | |x|x|g|g|l|t d]; try (rewrite registered_new in E by (exact T || discriminate); injection E as <-; reflexivity).
    cbn [cmd] in E. now rewrite (told_raw t d T) in E.
  - destruct m as [t v|f|st| | |x|x|g|g|l|t d]; try (rewrite registered_new in E by (exact T || discriminate); discriminate). reflexivity.
Qed.
Lemma read_told m s : message_read pf (cmd m) s m -> told m.
Proof.
  intros H. destruct m as [t v|f|st| | |x|x|g|g|l|t d]; cbn [told]; auto.
  - inversion H as [n t' s' ws v' I _ _ N| | | | | | | | |]. subst t'. destruct t; auto. repeat (destruct I as [I|I]; [discriminate|]). destruct I.
  - inversion H.
  - inversion H. now split.
Qed.
Lemma registered_arrives m : (exists m', unmarshal_message pf (cmd m) (marshal m) = Ok m' /\ same_message m m') <-> message_fits m /\ told m.
Proof.
  rewrite <- message_arrives. generalize (marshal m). intros s. split.
  - intros H. assert (T : told m) by (apply message_iff in H; now apply read_told in H). split; [|exact T]. rewrite <- told_new by exact T. exact H.
  - intros [H T]. rewrite told_new by exact T. exact H.
Qed.

(** ** Packets *)
Lemma packet_arrives sp p : (exists p', decode_packet pf sp (marshal_packet p) = Ok p' /\ same_packet p p') <-> packet_fits p.
Proof.
  assert (AS : marshal_packet p = marshal_packet (set_message (ARaw (cmd (message p)) (marshal (message p))) p)) by (unfold marshal_packet; now destruct p).
  unfold packet_fits. change (code_of (message p)) with (cmd (message p)). split.
  - intros H. apply decode_packet_iff in H. destruct H as (q & name & d & R & M & U & E).
    destruct (read_parts _ q name d R M) as (A & F & L & N1 & N2). destruct (relay_message pf PF name d _ U) as (C & NU & ST & _).
    pose proof (relay_raw sp _ q name d (marshal (message p)) R M (NU N2) ST) as RR.
    assert (EQ : set_message (ARaw name (marshal (message p))) q = set_message (ARaw (cmd (message p)) (marshal (message p))) p) by (rewrite C, <- E; now destruct q).
    rewrite EQ, <- AS in RR. apply (packet_iff sp) in R. rewrite R in RR. injection RR as RR.
    assert (D : d = marshal (message p)) by (unfold raw in M; rewrite RR in M; destruct p; cbn in M; now injection M).
    subst name d. apply message_iff in U. apply registered_arrives in U. destruct U as [U T]. split; [exact U|]. split; [exact T|].
    split; [subst q; now destruct p|]. split; [exact L|]. split; [exact N1|]. exists (marshal (message p)). split; [now apply message_text_iff|]. split; [exact N2|].
    subst q. destruct p; try exact I. cbn [set_message feature_starts message] in *. exact F.
  - intros (U & T & A & L & N1 & d & D & N2 & F). apply message_text_iff in D. subst d. apply decode_packet_iff.
    exists (set_message (ARaw (cmd (message p)) (marshal (message p))) p), (cmd (message p)), (marshal (message p)).
    split; [|split; [now destruct p|split; [apply message_iff, registered_arrives; now split|now destruct p]]].
    apply (packet_iff sp). rewrite AS. apply (packet_roundtrip sp _ (cmd (message p)) (marshal (message p))); try assumption; [now destruct p|now destruct p|].
    destruct p; try exact I. cbn [set_message payload_ok]. exact F.
Qed.
End Survive.

(** ** Lines *)
Lemma value_quiet k v : ~ In x0a (marshal_value k v) -> quiet k v.
Proof.
  induction k; cbn [marshal_value quiet val] in *; intros C; trivial.
  - apply Forall_forall. intros f F I. apply C. apply in_joined with f; assumption.
  - destruct v; [now apply IHk|exact I].
Qed.
Lemma zero_quiet k : quiet k (zero k).
Proof. destruct k; cbn; try exact I; [intuition discriminate|constructor]. Qed.
Lemma field_quiet f v : (forall w, In w (field_words f v) -> ~ In x0a w) -> quiet (f_kind f) v.
Proof.
  unfold field_words. destruct (_ && _ && _)%bool eqn:E.
  - intros _. apply andb_true_iff in E as [_ E]. apply zero_dec in E. subst v. apply zero_quiet.
  - destruct f as [n t rq k]. cbn [f_kind] in *. intros H. destruct k; try exact I; apply value_quiet; intros J; eapply H; try (now left); unfold word; apply in_or_app; now right.
Qed.
Lemma struct_quiet fs : forall v, (forall w, In w (struct_words fs v) -> ~ In x0a w) -> quiet_all fs v.
Proof.
  induction fs as [|f r IH]; intros v H; [exact I|]. cbn [struct_words quiet_all] in *. split; [apply field_quiet|apply IH]; intros w W; apply H, in_or_app; tauto.
Qed.
Lemma message_quiet m : ~ In x0a (cmd m) /\ ~ In x0a (marshal m) <-> quiet_message m.
Proof.
  split; [|intros Q; split; [now apply cmd_no_nl|now apply marshal_no_nl]]. intros [N1 N2].
  destruct m as [t v|f|st| | |x|x|g|g|l|t d]; cbn [quiet_message marshal cmd] in *; trivial; [| | |now split].
  - apply struct_quiet. intros w W I. apply N2. rewrite marshal_struct_words. now apply in_joined with w.
  - apply Forall_forall. intros e E I. apply N2. unfold modfeatures_marshal. destruct e as [e b]. apply in_joined with (B (if b then "AD" else "RM")%string ++ e); [apply in_map_iff; exists (e, b); split; [reflexivity|exact E]|]. apply in_or_app. now right.
  - apply Forall_forall. intros e E I. apply N2. unfold fields_marshal. destruct e as [e b]. apply in_joined with (e ++ escape b); [apply in_map_iff; exists (e, b); split; [reflexivity|exact E]|]. apply in_or_app. now left.
Qed.
Lemma header_quiet p : ~ In x0a (header p) <-> quiet_parts p.
Proof.
  split.
  - intros N. destruct p; cbn [header quiet_parts] in *; trivial; repeat split; try (intros J; apply N; repeat rewrite in_app_iff; tauto).
    apply Forall_forall. intros s S J. apply N. apply in_or_app; right; apply in_or_app; right; apply in_or_app; right. apply in_flat_map. exists s. split; [exact S|]. unfold selector. right. apply in_or_app. now left.
  - intros Q. rewrite header_line.
    + apply Forall_forall. intros id I. destruct p; cbn [sids In quiet_parts] in *; intuition (subst; auto).
    + destruct p; trivial. apply Q.
Qed.
Lemma packet_one_line p : a_line (marshal_packet p) <-> quiet_message (message p) /\ quiet_parts p.
Proof. rewrite line_form, <- message_quiet, <- header_quiet. tauto. Qed.

(** ** Streams *)
Lemma fitting_answers pf ps : converts pf -> Forall packet_fits ps -> forall sps, delivers (answers pf (map CPacket sps) (map marshal_packet ps)) ps.
Proof.
  intros PF F sps. revert ps F. induction sps as [|sp sps IH]; intros ps F; [constructor|].
  destruct F as [|p ps P F]; cbn [map answers about failed]; [apply dl_end, (IH []); constructor|].
  apply (packet_arrives pf PF sp) in P. destruct P as (p' & E & S). rewrite E. apply dl_packet; [exact S|now apply IH].
Qed.
Lemma answers_length pf cs : forall ls, length (answers pf cs ls) = length cs.
Proof. induction cs as [|c cs IH]; intros [|l ls]; cbn [answers length]; try reflexivity; now rewrite IH. Qed.
