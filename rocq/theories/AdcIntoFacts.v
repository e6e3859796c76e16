(** Decoding ADC payloads into messages in use (for C117). *)
From Verif Require Import Base BaseFacts Num Tiger AdcText AdcValue AdcMessage AdcPacket SpecText SpecHash SpecAdc SpecAdcMessage SpecAdcRead SpecAdcInto.
From Verif Require Import AdcCustomFacts AdcMessageFacts AdcReadFacts AdcReadPackets.

Lemma fields_loop_iff sub : forall l, fields_loop sub = Ok l <-> Forall (fun f => length (fst f) = 2) l /\ sub = map (fun f : bytes * bytes => fst f ++ snd f) l.
Proof.
  induction sub as [|w sub IH]; intros l; cbn [fields_loop].
  - split; [intros [= <-]; split; [constructor|reflexivity]|]. intros [_ E]. destruct l; [reflexivity|discriminate].
  - destruct w as [|a [|b w]].
    + split; [discriminate|]. intros [F E]. destruct l as [|[t v] l]; [discriminate|]. inversion F as [|? ? L ?]; subst. cbn [fst map] in *.
      destruct t; [discriminate L|discriminate E].
    + split; [discriminate|]. intros [F E]. destruct l as [|[t v] l]; [discriminate|]. inversion F as [|? ? L ?]; subst. cbn [fst snd map] in *.
      destruct t as [|x [|y t]]; try discriminate L. discriminate E.
    + split.
      * intros H. apply bind_ok in H. destruct H as (l' & H & [= <-]). apply IH in H. destruct H as [F ->]. split; [now constructor|reflexivity].
      * intros [F E]. destruct l as [|[t v] l]; [discriminate|]. inversion F as [|? ? L F']; subst. cbn [fst snd map] in *.
        destruct t as [|x [|y [|z t]]]; try discriminate L. cbn [app] in E. injection E as -> -> -> E.
        rewrite (proj2 (IH l) (conj F' E)). reflexivity.
Qed.

Lemma tagged_list_iff s l : fields_unmarshal s = Ok l <-> tagged_list s l.
Proof.
  unfold fields_unmarshal, tagged_list. destruct s as [|c s].
  - split; [intros [= <-]; auto|]. now intros [[_ ->]|[N _]].
  - rewrite fields_loop_iff. split.
    + intros [F E]. right. split; [discriminate|]. split; [exact F|]. now apply parts_split.
    + intros [[N _]|(_ & F & P)]; [discriminate|]. split; [exact F|]. now apply parts_split.
Qed.

Lemma merged_entries add rm old m : distinct old -> distinct m ->
  (forall k, fm_get k m = if existsb (bytes_eqb k) add then Some true else if existsb (bytes_eqb k) rm then Some false else fm_get k old) ->
  forall k b, In (k, b) m <-> (b = true /\ In k add) \/ (b = false /\ In k rm /\ ~ In k add) \/ (In (k, b) old /\ ~ In k add /\ ~ In k rm).
Proof.
  intros O D G k b. rewrite (entries_in m D), (entries_in old O), G.
  assert (X : forall l, existsb (bytes_eqb k) l = true <-> In k l).
  { intros l. rewrite existsb_exists. split; [intros (x & I & E); apply bytes_eqb_true in E; now subst|intros I; exists k; split; [assumption|apply bytes_eqb_refl]]. }
  destruct (existsb (bytes_eqb k) add) eqn:A.
  - apply X in A. split; [intros [= <-]; auto|]. intros [[-> _]|[(_ & _ & N)|(_ & N & _)]]; [reflexivity|contradiction|contradiction].
  - assert (NA : ~ In k add) by (intros I; apply X in I; congruence). destruct (existsb (bytes_eqb k) rm) eqn:R.
    + apply X in R. split; [intros [= <-]; auto|]. intros [[_ I]|[(-> & _)|(_ & _ & N)]]; [contradiction|reflexivity|contradiction].
    + assert (NR : ~ In k rm) by (intros I; apply X in I; congruence). split; [tauto|]. intros [[_ I]|[(_ & I & _)|(E & _)]]; [contradiction|contradiction|exact E].
Qed.

Lemma sup_into_iff pf s ws old m : distinct old -> separated s ws ->
  ((exists m', modfeatures_unmarshal pf s old = Ok m' /\ distinct m /\ distinct m' /\ forall k b, In (k, b) m <-> In (k, b) m') <-> features_into ws old m).
Proof.
  intros O W. unfold features_into. split.
  - intros (m' & H & D & D' & S).
    assert (F : Forall (fun f => length f = 4) (map unescape (values (B "AD") ws) ++ map unescape (values (B "RM") ws))).
    { unfold modfeatures_unmarshal in H. rewrite (mod_fields_decoded pf s ws W) in H. cbn [bind] in H. apply bind_ok in H. destruct H as (m1 & H1 & H2).
      apply mod_loop_err in H1, H2. now apply Forall_app. }
    exists (map unescape (values (B "AD") ws)), (map unescape (values (B "RM") ws)).
    split; [now apply unescapes|]. split; [now apply unescapes|]. split; [exact F|]. split; [exact D|].
    destruct (modfeatures_entries pf s ws old W F) as (m2 & E & _ & G). rewrite H in E. injection E as <-.
    intros k b. rewrite S. revert k b. now apply merged_entries.
  - intros (add & rm & A & R & F & D & S). apply unescapes in A, R. subst add rm.
    destruct (modfeatures_entries pf s ws old W F) as (m2 & E & D2 & G). exists m2. split; [exact E|]. split; [exact D|].
    specialize (D2 O). split; [exact D2|]. intros k b. rewrite S. symmetry. now apply merged_entries.
Qed.

Lemma get_unmarshal_old old s : get_unmarshal old s =
  match get_unmarshal new_get s with
  | Ok h => Ok {| g_type := g_type h; g_path := g_path h; g_start := g_start h; g_bytes := g_bytes h; g_comp := (g_comp h || g_comp old)%bool |}
  | Err e => Err e | Panic => Panic
  end.
Proof.
  unfold get_unmarshal. destruct (cut " " s) as [[t s1]|]; [|reflexivity]. destruct (cut " " s1) as [[p s2]|]; [|reflexivity].
  destruct (cut " " s2) as [[a s3]|]; [|reflexivity]. destruct (parse_int64 a); try reflexivity.
  destruct (cut " " s3) as [[b s4]|]; destruct (parse_int64 _); try reflexivity. destruct s4; [reflexivity|]. now destruct (bytes_eqb _ _).
Qed.

Lemma get_into_iff old s g : get_unmarshal old s = Ok g <-> get_into s old g.
Proof.
  rewrite get_unmarshal_old. unfold get_into. split.
  - destruct (get_unmarshal new_get s) as [h|e|] eqn:H; try discriminate. intros [= <-]. exists h.
    split; [now apply (get_iff s h new_get eq_refl)|]. cbn [g_type g_path g_start g_bytes g_comp]. repeat split; apply Bool.orb_true_iff.
  - intros (h & R & E1 & E2 & E3 & E4 & E5). apply (get_iff s h new_get eq_refl) in R. rewrite R. f_equal. destruct g as [a b c d e], h as [a' b' c' d' e'].
    cbn [g_type g_path g_start g_bytes g_comp] in *. subst. f_equal. destruct e', (g_comp old), e; cbn; intuition.
Qed.

Lemma same_alone m m' : same_message m m' -> match m' with ASup _ => False | _ => True end -> m = m'.
Proof. intros Q N. destruct m, m'; cbn [same_message] in Q; try contradiction; assumption. Qed.

Lemma into_iff pf s old m : typed old ->
  ((exists m', unmarshal pf s old = Ok m' /\ same_message m m') <-> decoded_into pf s old m).
Proof.
  intros T. split.
  - intros (m' & H & Q). destruct old; cbn [unmarshal typed] in *.
    + apply bind_ok in H. destruct H as (v' & H & E). assert (m' = AStruct t v') as -> by congruence. rewrite (same_alone _ _ Q Logic.I).
      apply (di_struct pf s t (split_byte " " s)); [apply split_separated|]. apply (struct_iff pf t s _ v v' (split_separated s) (array_sized _ _ T)). exact H.
    + apply bind_ok in H. destruct H as (f' & H & [= <-]). destruct m; cbn [same_message] in Q; try contradiction.
      apply (di_sup pf s (split_byte " " s)); [apply split_separated|]. apply (sup_into_iff pf s _ _ _ T (split_separated s)). exists f'. tauto.
    + apply bind_ok in H. destruct H as (x & H & [= <-]). rewrite (same_alone _ _ Q Logic.I). constructor. now apply status_decoded.
    + injection H as <-. rewrite (same_alone _ _ Q Logic.I). constructor.
    + injection H as <-. rewrite (same_alone _ _ Q Logic.I). constructor.
    + apply bind_ok in H. destruct H as (x & H & [= <-]). rewrite (same_alone _ _ Q Logic.I). apply sid_iff in H. destruct H as [<- L]. now constructor.
    + apply bind_ok in H. destruct H as (x & H & [= <-]). rewrite (same_alone _ _ Q Logic.I). constructor. now apply salt_iff.
    + apply bind_ok in H. destruct H as (x & H & [= <-]). rewrite (same_alone _ _ Q Logic.I). constructor. now apply get_into_iff.
    + apply bind_ok in H. destruct H as (x & H & [= <-]). rewrite (same_alone _ _ Q Logic.I). constructor. now apply get_into_iff.
    + apply bind_ok in H. destruct H as (x & H & [= <-]). rewrite (same_alone _ _ Q Logic.I). constructor. now apply tagged_list_iff.
    + injection H as <-. rewrite (same_alone _ _ Q Logic.I). constructor.
  - intros H. destruct H as [t ws old v W F|ws old m W F|old st F| | |old L|old salt F|old g F|old g F|old l F|t old]; cbn [unmarshal typed] in *.
    + apply (struct_iff pf t s ws _ v W (array_sized _ _ T)) in F. rewrite F. eexists. split; [reflexivity|]. reflexivity.
    + apply (sup_into_iff pf s ws old m T W) in F. destruct F as (m' & E & S). exists (ASup m'). rewrite E. split; [reflexivity|exact S].
    + apply status_decoded in F. rewrite F. eexists. now split.
    + eexists. now split.
    + eexists. now split.
    + exists (ASid s). rewrite (proj2 (sid_iff s s) (conj eq_refl L)). now split.
    + apply salt_iff in F. rewrite F. eexists. now split.
    + apply get_into_iff in F. rewrite F. eexists. now split.
    + apply get_into_iff in F. rewrite F. eexists. now split.
    + apply tagged_list_iff in F. rewrite F. eexists. now split.
    + eexists. now split.
Qed.

Lemma into_crash_iff pf s old : typed old -> (unmarshal pf s old = Panic <-> crash_into pf s old).
Proof.
  intros T. unfold crash_into. split.
  - intros H. destruct old.
    { exists t, v, (split_byte " " s). split; [reflexivity|]. split; [apply split_separated|]. now apply (struct_crash_iff pf t s _ _ (split_separated s) (array_sized _ _ T)). }
    all: cbn [unmarshal typed] in *; try discriminate H; exfalso; apply bind_panic in H; (destruct H as [H|(x & _ & H)]; [|discriminate]).
    + now apply modfeatures_total in H.
    + now apply status_total in H.
    + unfold sid_unmarshal in H. destruct (_ =? _)%nat; discriminate.
    + now apply gpa_total in H.
    + now apply get_total in H.
    + now apply get_total in H.
    + now apply fields_total in H.
  - intros (t & v & ws & -> & W & C). now apply (struct_crash_iff pf t s ws v W (array_sized _ _ T)).
Qed.
