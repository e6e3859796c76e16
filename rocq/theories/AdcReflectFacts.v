(** Proofs about Marshal and Unmarshal of structures of a program. *)
From Verif Require Import Base BaseFacts Num NumFacts AdcText AdcTextFacts AdcValue AdcMessageFacts AdcWriteFacts AdcReuse AdcReflect.
From Verif Require Import SpecText SpecAdc SpecAdcWrite SpecReflect.
From Coq Require Import Lia ZArith.

Lemma zero_blank t : g_zero t = blank t.
Proof. now destruct t. Qed.

(** ** Tags *)

Lemma tag_parts_name tag n o : tag_parts tag n o -> tag_name tag = n /\ (tag_req tag = true <-> o = Some (B "req")).
Proof.
  intros [m N|m r N]; unfold tag_name, tag_req.
  - rewrite (proj2 (cut_none _ _) N). split; [reflexivity|]. split; discriminate.
  - rewrite (cut_app _ _ _ N). split; [reflexivity|]. rewrite bytes_eqb_true. split; [now intros ->|now intros [= ->]].
Qed.
Lemma tag_parts_exist tag : exists o, tag_parts tag (tag_name tag) o.
Proof.
  unfold tag_name. destruct (cut "," tag) as [[a r]|] eqn:E.
  - apply cut_spec in E. destruct E as [-> N]. exists (Some r). now constructor.
  - apply cut_none in E. exists None. now constructor.
Qed.
Lemma skips_iff n : tag_skips n = true <-> no_field n.
Proof. unfold tag_skips, no_field. rewrite Bool.orb_true_iff, !bytes_eqb_true. reflexivity. Qed.
Lemma hash_iff n : tag_hash n = true <-> n = B "#".
Proof. apply bytes_eqb_true. Qed.

Lemma prefix_firstn n w : has_prefix n w = bytes_eqb (firstn (length n) w) n.
Proof.
  revert w. induction n as [|x n IH]; intros [|y w]; try reflexivity. cbn [has_prefix length firstn bytes_eqb]. rewrite IH.
  f_equal. apply beq_sym.
Qed.
Lemma tagged_after n ws : tagged n ws = after n ws.
Proof.
  unfold tagged, after. induction ws as [|w ws IH]; [reflexivity|]. cbn [filter flat_map]. rewrite <- prefix_firstn.
  destruct (has_prefix n w) eqn:E; cbn [map app]; rewrite IH; [|reflexivity].
  unfold trim_prefix. now rewrite E.
Qed.

(** ** Numbers *)

Lemma size_pos w : (0 < size w)%Z. Proof. now destruct w. Qed.
Lemma kept_wrap w z z' : kept w z z' <-> z' = wrap w z.
Proof.
  assert (W : wrap w z = ((z + 2 ^ (size w - 1)) mod 2 ^ size w - 2 ^ (size w - 1))%Z) by now destruct w.
  rewrite W. unfold kept, fits.
  assert (P : (2 ^ size w = 2 * 2 ^ (size w - 1))%Z) by now destruct w.
  assert (Q : (0 < 2 ^ (size w - 1))%Z) by now destruct w.
  set (h := (2 ^ (size w - 1))%Z) in *. rewrite P. split.
  - intros [F [k ->]]. replace (z' + k * (2 * h) + h)%Z with (z' + h + k * (2 * h))%Z by ring.
    rewrite Z.mod_add by lia. rewrite Z.mod_small; lia.
  - intros ->. pose proof (Z.mod_pos_bound (z + h) (2 * h) ltac:(lia)). split; [lia|].
    exists ((z + h) / (2 * h))%Z. pose proof (Z.div_mod (z + h) (2 * h) ltac:(lia)). lia.
Qed.

Lemma parse_int_iff w x z : w <> Bits8 -> (parse_int (short_int w) x = Ok z <-> signed_decimal x z /\ accepted w z).
Proof.
  intros N. unfold parse_int. split.
  - destruct (parse_int64 x) as [y|e|] eqn:E; try discriminate. apply signed_int in E. destruct E as [D I].
    destruct w; try congruence; cbn [short_int andb]; unfold accepted, fits; cbn [size].
    + destruct (negb _) eqn:C; [discriminate|]. intros [= <-]. split; [assumption|].
      apply Bool.negb_false_iff, Bool.andb_true_iff in C. rewrite Z.leb_le, Z.ltb_lt in C. exact C.
    + destruct (negb _) eqn:C; [discriminate|]. intros [= <-]. split; [assumption|].
      apply Bool.negb_false_iff, Bool.andb_true_iff in C. rewrite Z.leb_le, Z.ltb_lt in C. exact C.
    + intros [= <-]. split; [assumption|exact I].
  - intros [D A]. assert (I : int64 z) by (destruct w; unfold accepted, fits in A; cbn [size] in A; unfold int64; lia).
    rewrite (proj1 (signed_int x z) (conj D I)).
    destruct w; try congruence; cbn [short_int andb]; unfold accepted, fits in A; cbn [size] in A; try reflexivity;
      change (32 - 1)%Z with 31%Z in A; rewrite (proj2 (Z.leb_le _ _)), (proj2 (Z.ltb_lt _ _)) by lia; reflexivity.
Qed.
Lemma parse_int_total b x : parse_int b x <> Panic.
Proof.
  unfold parse_int. pose proof (parse_int64_total x). destruct (parse_int64 x); try congruence. destruct (b && _)%bool; discriminate.
Qed.

Section Read.
Variable M : nat -> gmethods.
Variable pf : bool -> bytes -> float_result.

Lemma itself_iff t f : decodes_itself M t f <-> gm_decode (methods_of M t) = Some f.
Proof.
  unfold decodes_itself. split.
  - intros (n & N & E). destruct t; cbn in *; try discriminate; congruence.
  - destruct t; cbn; intros E; try discriminate; eauto.
Qed.
Lemma plain_iff t : plain M t <-> gm_decode (methods_of M t) = None.
Proof.
  unfold plain. destruct t; cbn; split; intros H; try reflexivity; try (now apply H); intros m [= <-]; assumption.
Qed.

Lemma short_iff w : short_int w = true <-> w <> Bits64.
Proof. destruct w; cbn; split; congruence. Qed.
Lemma short_unique b w : (b = true <-> w <> Bits64) -> b = short_int w.
Proof. intros H. destruct b, (short_int w) eqn:E; try reflexivity; [|symmetry]; exfalso.
  - assert (short_int w = true) by (apply short_iff; tauto). congruence.
  - apply short_iff in E. assert (false = true) by tauto. discriminate.
Qed.

Lemma no_number w x e : w <> Bits8 -> parse_int (short_int w) x = Err e -> forall z, signed_decimal x z -> ~ accepted w z.
Proof. intros N E z D A. rewrite (proj2 (parse_int_iff w x z N) (conj D A)) in E. discriminate. Qed.
Lemma number_err w x : w <> Bits8 -> (forall z, signed_decimal x z -> ~ accepted w z) -> exists e, parse_int (short_int w) x = Err e.
Proof.
  intros N H. destruct (parse_int (short_int w) x) as [z|e|] eqn:E; [|eauto|now apply parse_int_total in E].
  apply parse_int_iff in E; [|assumption]. destruct E as [D A]. destruct (H z D A).
Qed.

Lemma flag_iff c b : (b = true <-> c <> x00) <-> b = negb (beq c x00).
Proof.
  destruct (beq c x00) eqn:E.
  - apply beq_true in E. subst. cbn. split; [|intros ->; split; congruence]. intros [H _]. destruct b; [|reflexivity]. now destruct H.
  - apply beq_false in E. cbn. split; [intros H; apply H; assumption|intros ->; tauto].
Qed.

Lemma decode_sound t : forall x old v r, g_decode M pf t x old = (v, r) -> value_read M pf t x old v (ended r).
Proof.
  induction t as [n|n|n w|n w|n c z|n t IH|t IH]; intros x old v r;
    (cbn [g_decode]; match goal with |- context [methods_of M ?t] => destruct (gm_decode (methods_of M t)) as [f|] eqn:D end;
     [intros E; apply vr_own with (f := f); [now apply itself_iff|assumption]|
      apply plain_iff in D; destruct x as [|a x]; [intros [= <- <-]; apply (vr_empty M pf _ old D)|]]).
  - intros [= <- <-]. apply vr_string; [assumption|discriminate|apply unescape_denotes].
  - destruct x as [|b x]; intros [= <- <-]; [apply vr_flag; [assumption|now apply flag_iff]|apply vr_no_flag; [assumption|cbn; lia]].
  - assert (G : w <> Bits8 -> match parse_int (short_int w) (a :: x) with
              | Ok z => (VInt (wrap w z), MDone)
              | Err e => match pf (short_int w) (a :: x) with FErr => (old, MFail e) | FFrac => (old, MDone) | FInt z => (VInt (wrap w z), MDone) end
              | Panic => (old, MPanic) end = (v, r) -> value_read M pf (GInt n w) (a :: x) old v (ended r)).
    { intros N. destruct (parse_int (short_int w) (a :: x)) as [z|e|] eqn:E; [| |now apply parse_int_total in E].
      - intros [= <- <-]. apply parse_int_iff in E; [|assumption]. destruct E as [E A].
        apply vr_int with (z := z); try assumption. now apply kept_wrap.
      - pose proof (no_number w (a :: x) e N E) as NN. destruct (pf (short_int w) (a :: x)) as [| |z] eqn:F; intros [= <- <-].
        + apply vr_no_number with (b := short_int w); try assumption; [discriminate|apply short_iff].
        + apply vr_fraction with (b := short_int w); try assumption; [discriminate|apply short_iff].
        + apply vr_float with (b := short_int w) (z := z); try assumption; [discriminate|apply short_iff|now apply kept_wrap]. }
    destruct w; [intros [= <- <-]; apply vr_unreadable; [assumption|exact Logic.I|discriminate]| | |]; apply G; discriminate.
  - intros [= <- <-]. apply vr_unreadable; [assumption|exact Logic.I|discriminate].
  - intros [= <- <-]. apply vr_unreadable; [assumption|exact Logic.I|discriminate].
  - intros [= <- <-]. apply vr_unreadable; [assumption|exact Logic.I|discriminate].
  - rewrite zero_blank. destruct (g_decode M pf t (a :: x) (blank t)) as [u e] eqn:E. apply IH in E.
    destruct e; intros [= <- <-].
    + apply vr_pointer; [discriminate|exact E].
    + apply vr_no_pointer with (v := u); [discriminate|exact E|discriminate].
    + apply vr_no_pointer with (v := u); [discriminate|exact E|discriminate].
Qed.

Lemma decode_complete t x old v r : value_read M pf t x old v r -> exists r', g_decode M pf t x old = (v, r') /\ ended r' = r.
Proof.
  induction 1 as [t f x old v r D E|t old P|n x old s P N D|n c old b P F|n x old P L|n w x old z z' P W D A K
    |n w x old z z' P W N NN b B F K|n w x old P W N NN b B F|n w x old P W N NN b B F|t x old v N V IH|t x old v r N V IH NG|t x old P U N];
    try apply plain_iff in P.
  - apply itself_iff in D. exists r. split; [|reflexivity]. destruct t; cbn [g_decode]; rewrite D; exact E.
  - exists MDone. split; [|reflexivity]. destruct t; cbn [g_decode]; rewrite P; reflexivity.
  - exists MDone. split; [|reflexivity]. cbn [g_decode]. rewrite P. destruct x; [congruence|].
    apply AdcTextFacts.denotes_unescape in D. now subst.
  - exists MDone. split; [|reflexivity]. cbn [g_decode]. rewrite P. apply flag_iff in F. now subst.
  - exists (MFail (EText "invalid bool value")). split; [|reflexivity]. cbn [g_decode]. rewrite P. destruct x as [|a [|b x]]; cbn in L; try lia. reflexivity.
  - exists MDone. split; [|reflexivity]. cbn [g_decode]. rewrite P. apply kept_wrap in K. subst z'.
    assert (x <> []) by (intros ->; destruct D as (d & y & (Nn & _) & [[E _]|[[E _]|[E _]]]); congruence).
    destruct x; [congruence|]. rewrite (proj2 (parse_int_iff w _ z W) (conj D A)). now destruct w.
  - exists MDone. split; [|reflexivity]. cbn [g_decode]. rewrite P. apply kept_wrap in K. subst z'. apply short_unique in B. subst b.
    destruct x; [congruence|]. destruct (number_err w _ W NN) as [e ->]. rewrite F. now destruct w.
  - exists MDone. split; [|reflexivity]. cbn [g_decode]. rewrite P. apply short_unique in B. subst b.
    destruct x; [congruence|]. destruct (number_err w _ W NN) as [e ->]. rewrite F. now destruct w.
  - apply short_unique in B. subst b. destruct (number_err w _ W NN) as [e E]. exists (MFail e). split; [|reflexivity].
    cbn [g_decode]. rewrite P. destruct x; [congruence|]. rewrite E, F. now destruct w.
  - destruct IH as (r' & E & R). exists MDone. split; [|reflexivity]. destruct x; [congruence|].
    cbn [g_decode methods_of gm_decode no_methods]. rewrite zero_blank, E. now destruct r'.
  - destruct IH as (r' & E & R). exists r'. split; [|assumption]. destruct x; [congruence|].
    cbn [g_decode methods_of gm_decode no_methods]. rewrite zero_blank, E. destruct r'; try reflexivity. now destruct NG.
  - exists (MFail (EText "unknown type")). split; [|reflexivity]. destruct x as [|a x]; [congruence|].
    destruct t as [n|n|n w|n w|n c z|n t|t]; try destruct w; cbn [unreadable] in U; try contradiction; cbn [g_decode]; rewrite P; reflexivity.
Qed.

Lemma ended_good r : ended r = Good <-> r = MDone.
Proof. destruct r; cbn; split; congruence. Qed.

Lemma elements_sound t : forall xs l r, g_elements M pf t xs = (l, r) ->
  match r with MDone => items_read M pf t xs l | _ => items_fail M pf t xs (ended r) end.
Proof.
  induction xs as [|x xs IH]; intros l r; cbn [g_elements].
  - intros [= <- <-]. constructor.
  - rewrite zero_blank. destruct (g_decode M pf t x (blank t)) as [v e] eqn:E. apply decode_sound in E.
    destruct e; [|intros [= <- <-]; exists [], x, xs, [], v; repeat split; [constructor|exact E|discriminate]..].
    destruct (g_elements M pf t xs) as [l' r'] eqn:F. intros [= <- <-]. specialize (IH _ _ eq_refl).
    destruct r'; [now constructor|..]; destruct IH as (a & y & b & vs & u & -> & I & V & N);
      exists (x :: a), y, b, (v :: vs), u; repeat split; try assumption; now constructor.
Qed.
Lemma elements_read t xs vs : items_read M pf t xs vs -> g_elements M pf t xs = (vs, MDone).
Proof.
  induction 1 as [|x v xs vs V _ IH]; [reflexivity|]. cbn [g_elements]. rewrite zero_blank.
  destruct (decode_complete _ _ _ _ _ V) as (r & -> & R). apply ended_good in R. subst r. now rewrite IH.
Qed.
Lemma elements_fail t xs r : items_fail M pf t xs r -> exists l r', g_elements M pf t xs = (l, r') /\ ended r' = r /\ r <> Good.
Proof.
  intros (a & x & b & vs & v & -> & I & V & N). revert vs I. induction a as [|y a IH]; intros vs I.
  - cbn [app g_elements]. rewrite zero_blank. destruct (decode_complete _ _ _ _ _ V) as (r' & -> & R).
    destruct r'; [now destruct N|..]; eauto.
  - inversion I as [|? u ? us U I']; subst. cbn [app g_elements]. rewrite zero_blank.
    destruct (decode_complete _ _ _ _ _ U) as (r' & -> & R). apply ended_good in R. subst r'.
    destruct (IH _ I') as (l & r' & -> & R & _). eauto.
Qed.

Lemma named_sound t xs old v r : xs <> [] -> g_named M pf t xs old = (v, r) -> named_read M pf t xs old v (ended r).
Proof.
  intros N. destruct xs as [|x more]; [congruence|]. unfold g_named. destruct (gm_decode (methods_of M t)) as [f|] eqn:D.
  - intros E. apply nr_own with (f := f); [now apply itself_iff|assumption].
  - apply plain_iff in D.
    assert (G : (forall n e, t <> GSlice n e) ->
      match more with [] => g_decode M pf t x old | _ => (old, MFail (EText "expected single value")) end = (v, r) ->
      named_read M pf t (x :: more) old v (ended r)).
    { intros S. destruct more as [|y more]; intros E.
      - apply nr_single; [assumption|assumption|now apply decode_sound].
      - injection E as <- <-. apply nr_many; [assumption|assumption|cbn; lia]. }
    destruct t as [n|n|n w|n w|n c z|n t|t]; try (apply G; discriminate).
    destruct (g_elements M pf t (x :: more)) as [l e] eqn:E. apply elements_sound in E.
    destruct e; intros [= <- <-]; [apply nr_slice with (n := n) (e := t)|apply nr_no_slice with (n := n) (e := t)..]; auto.
Qed.
Lemma named_complete t xs old v r : named_read M pf t xs old v r -> exists r', g_named M pf t xs old = (v, r') /\ ended r' = r /\ xs <> [].
Proof.
  intros [f x more old' v' r' D E|n e xs' old' vs P -> N I|n e xs' old' r' P -> F|x old' v' r' P S V|xs' old' P S L];
    try apply plain_iff in P.
  - apply itself_iff in D. unfold g_named. rewrite D. exists r'. split; [exact E|]. split; [reflexivity|discriminate].
  - exists MDone. destruct xs' as [|x more]; [congruence|]. unfold g_named. rewrite P, (elements_read _ _ _ I). repeat split. discriminate.
  - destruct (elements_fail _ _ _ F) as (l & r'' & E & R & N). exists r''. destruct xs' as [|x more].
    { destruct F as (a & x & b & vs & u & E' & _). destruct a; discriminate. }
    unfold g_named. rewrite P, E. destruct r''; [now destruct N|..]; repeat split; assumption || discriminate.
  - destruct (decode_complete _ _ _ _ _ V) as (r'' & E & R). exists r''. unfold g_named. rewrite P.
    split; [|split; [assumption|discriminate]]. destruct t; try exact E. now destruct (S n t).
  - exists (MFail (EText "expected single value")). destruct xs' as [|x [|y more]]; cbn in L; try lia. unfold g_named. rewrite P.
    split; [|split; [reflexivity|discriminate]]. destruct t; try reflexivity. now destruct (S n t).
Qed.

Lemma concluded_field f r : concluded (on_field f r) = conclude f (ended r).
Proof. now destruct r. Qed.

Lemma fields_sound fs : forall ws olds vs e, length fs = length olds -> g_fields M pf fs ws olds = (vs, e) ->
  struct_read M pf fs ws olds vs (concluded e).
Proof.
  induction fs as [|f fs IH]; intros ws [|old olds] vs e L; try discriminate.
  - intros [= <- <-]. constructor.
  - injection L as L. cbn [g_fields]. destruct (tag_parts_exist (gf_tag f)) as [o T].
    set (n := tag_name (gf_tag f)) in *.
    assert (Next : forall ws' v, field_read M pf f ws ws' old v Good ->
              (let '(l, r) := g_fields M pf fs ws' olds in (v :: l, r)) = (vs, e) -> struct_read M pf (f :: fs) ws (old :: olds) vs (concluded e)).
    { intros ws' v F. destruct (g_fields M pf fs ws' olds) as [l r] eqn:E. intros [= <- <-].
      apply sr_next with (ws' := ws'); [assumption|now apply IH]. }
    assert (Stop : forall ws' v r, field_read M pf f ws ws' old v (ended r) -> r <> MDone ->
              (v :: olds, on_field f r) = (vs, e) -> struct_read M pf (f :: fs) ws (old :: olds) vs (concluded e)).
    { intros ws' v r F N [= <- <-]. rewrite concluded_field. apply sr_stop with (ws' := ws'); [assumption| |assumption].
      now rewrite ended_good. }
    destruct (tag_skips n) eqn:K; [apply skips_iff in K|].
    + apply Next. apply fr_skip with (n := n) (o := o); assumption.
    + assert (K' : ~ no_field n) by (rewrite <- skips_iff; congruence). destruct (tag_hash n) eqn:H.
      * apply hash_iff in H. rewrite H in T. destruct ws as [|x ws].
        { apply (Stop [] old MPanic); [apply fr_no_word with (o := o); assumption|discriminate]. }
        destruct (gf_exported f) eqn:X.
        2: { apply (Stop ws old MPanic); [apply fr_hidden_word with (o := o); assumption|discriminate]. }
        destruct (g_decode M pf (gf_type f) x old) as [v r] eqn:E. apply decode_sound in E.
        destruct r; [apply (Next ws)|apply (Stop ws); [|discriminate]..]; apply fr_word with (o := o); assumption.
      * assert (H' : n <> B "#") by (rewrite <- hash_iff; congruence). rewrite tagged_after.
        destruct (after n ws) as [|x xs] eqn:A.
        { apply (Next ws). apply fr_absent with (n := n) (o := o); assumption. }
        destruct (gf_exported f) eqn:X.
        2: { apply (Stop ws old MPanic); [apply fr_hidden with (n := n) (o := o); try assumption|discriminate]. rewrite A. discriminate. }
        destruct (g_named M pf (gf_type f) (x :: xs) old) as [v r] eqn:E. apply named_sound in E; [|discriminate]. rewrite <- A in E.
        destruct r; [apply (Next ws)|apply (Stop ws); [|discriminate]..]; apply fr_named with (n := n) (o := o); assumption.
Qed.

Lemma field_step f fs ws ws' old olds v r : field_read M pf f ws ws' old v r ->
  exists r', ended r' = r /\ g_fields M pf (f :: fs) ws (old :: olds) =
    match r' with MDone => let '(l, e) := g_fields M pf fs ws' olds in (v :: l, e) | _ => (v :: olds, on_field f r') end.
Proof.
  intros F. destruct F as [n o ws old T K|o x ws old v r T X V|o old T|o x ws old T X|n o ws old T K H A|n o ws old v r T K H X N|n o ws old T K H X A];
    destruct (tag_parts_name _ _ _ T) as [E _]; cbn [g_fields]; rewrite E;
    try (rewrite <- skips_iff in K; apply Bool.not_true_iff_false in K; rewrite K; rewrite <- hash_iff in H; apply Bool.not_true_iff_false in H; rewrite H, tagged_after).
  - exists MDone. split; [reflexivity|]. apply skips_iff in K. now rewrite K.
  - destruct (decode_complete _ _ _ _ _ V) as (r' & D & R). exists r'. split; [assumption|]. cbn. rewrite X, D. now destruct r'.
  - exists MPanic. now split.
  - exists MPanic. cbn. rewrite X. now split.
  - exists MDone. split; [reflexivity|]. now rewrite A.
  - destruct (named_complete _ _ _ _ _ N) as (r' & D & R & NE). exists r'. split; [assumption|].
    destruct (after n ws) as [|x xs]; [congruence|]. rewrite X, D. now destruct r'.
  - exists MPanic. split; [reflexivity|]. destruct (after n ws); [congruence|]. now rewrite X.
Qed.

Lemma fields_complete fs ws olds vs c : struct_read M pf fs ws olds vs c ->
  exists e, g_fields M pf fs ws olds = (vs, e) /\ concluded e = c.
Proof.
  induction 1 as [ws|f fs ws ws' old v olds vs c F _ IH|f fs ws ws' old v olds r F N L].
  - exists EndDone. now split.
  - destruct (field_step f fs ws ws' old olds v _ F) as (r' & R & ->). apply ended_good in R. subst r'.
    destruct IH as (e & -> & C). eauto.
  - destruct (field_step f fs ws ws' old olds v _ F) as (r' & R & ->). exists (on_field f r'). rewrite concluded_field, R.
    split; [|reflexivity]. subst r. destruct r'; try reflexivity. now destruct N.
Qed.
End Read.

Section Write.
Variable M : nat -> gmethods.

Lemma mute_number t n : type_number t = Some n -> methods_of M t = M n.
Proof. destruct t; cbn; congruence. Qed.

Lemma method_iff t v m : typed t v -> (g_method M t v = Some m <-> writes_itself M t v m).
Proof.
  intros Y. split.
  - assert (G : forall n, type_number t = Some n -> match gm_value (M n) with Some f => Some (f v) | None => None end = Some m -> writes_itself M t v m).
    { intros n N. destruct (gm_value (M n)) as [f|] eqn:F; [|discriminate]. intros [= <-]. now apply wi_value with (n := n). }
    destruct t as [n|n|n w|n w|n c z|n t|t]; try (apply (G n); reflexivity).
    destruct v as [| | | | | |p]; try contradiction. cbn [g_method]. destruct (type_number t) as [n|] eqn:N.
    + rewrite (mute_number _ _ N). destruct (gm_value (M n)) as [f|] eqn:F; [|destruct (gm_pointer (M n)) as [f|] eqn:P; [|discriminate]].
      * destruct p as [x|]; intros [= <-]; [now apply wi_target with (n := n)|now apply wi_nil with (n := n) (f := f)].
      * intros [= <-]. now apply wi_pointer with (n := n).
    + destruct t; try discriminate.
  - intros [t' n f v' N F|t' n f x N F|t' n f N F|t' n f p N F P].
    + unfold g_method. rewrite (mute_number _ _ N), F. destruct t'; try reflexivity. discriminate.
    + cbn [g_method]. now rewrite (mute_number _ _ N), F.
    + cbn [g_method]. now rewrite (mute_number _ _ N), F.
    + cbn [g_method]. now rewrite (mute_number _ _ N), F, P.
Qed.
Lemma mute_iff t v : typed t v -> (g_method M t v = None <-> mute M t).
Proof.
  intros Y. assert (G : forall n, type_number t = Some n -> (match gm_value (M n) with Some f => Some (f v) | None => None end = None <-> forall k, type_number t = Some k -> gm_value (M k) = None)).
  { intros n N. split.
    - intros H k K. rewrite N in K. injection K as <-. now destruct (gm_value (M n)).
    - intros H. now rewrite (H n N). }
  destruct t as [n|n|n w|n w|n c z|n t|t]; try (apply (G n); reflexivity).
  destruct v as [| | | | | |p]; try contradiction. cbn [g_method mute]. destruct (type_number t) as [n|] eqn:N.
  - rewrite (mute_number _ _ N). split.
    + intros H k [= <-]. destruct (gm_value (M n)); [discriminate|]. now destruct (gm_pointer (M n)).
    + intros H. destruct (H n eq_refl) as [-> ->]. reflexivity.
  - destruct t; try discriminate. cbn. split; [congruence|reflexivity].
Qed.
Lemma mute_no_method t v m : mute M t -> ~ writes_itself M t v m.
Proof.
  intros U W. destruct W as [t n f v N F|t n f x N F|t n f N F|t n f p N F P].
  - destruct t; try discriminate; cbn in U; rewrite (U n N) in F; discriminate.
  - destruct (U n N) as [E _]. congruence.
  - destruct (U n N) as [E _]. congruence.
  - destruct (U n N) as [_ E]. congruence.
Qed.

Lemma format_number n : format_uint n = number_text (Z.of_N n).
Proof.
  rewrite <- number_format. unfold format_int. destruct n; reflexivity.
Qed.

Lemma encode_sound t : forall v buf buf' r, typed t v -> g_encode M t v buf = (buf', r) -> value_written M t v buf buf' (ended r).
Proof.
  induction t as [n|n|n w|n w|n c z|n t IH|t IH]; intros v buf buf' r Y;
    (cbn [g_encode]; match goal with |- context [g_method M ?t v] => destruct (g_method M t v) as [m|] eqn:D end;
     [intros E; apply vw_own with (m := m); [now apply method_iff|assumption]|apply mute_iff in D; [|assumption]];
     destruct v as [s|b|y|y|d|l|p]; try contradiction).
  - intros [= <- <-]. apply vw_string; [assumption|apply escape_escaped].
  - intros [= <- <-]. destruct b; [exact (vw_bool M n true buf D)|exact (vw_bool M n false buf D)].
  - destruct w; intros [= <- <-]; rewrite ?number_format; try (apply vw_int; [assumption|discriminate]).
    apply vw_unwritable; [assumption|exact Logic.I].
  - destruct w; intros [= <- <-]; rewrite ?format_number; try (apply vw_uint; [assumption|discriminate]).
    apply vw_unwritable; [assumption|exact Logic.I].
  - intros [= <- <-]. apply vw_unwritable; [assumption|exact Logic.I].
  - intros [= <- <-]. apply vw_unwritable; [assumption|exact Logic.I].
  - destruct p as [x|]; [|intros [= <- <-]; now apply vw_nil]. intros E. apply vw_pointer; [assumption|now apply IH].
Qed.

Lemma encode_complete t v buf buf' r : typed t v -> value_written M t v buf buf' r -> exists r', g_encode M t v buf = (buf', r') /\ ended r' = r.
Proof.
  intros Y W. induction W as [t v m buf buf' r W E|n s e buf U E|n w z buf U N|n w z buf U N|n b buf U|t buf U|t x buf buf' r U W IH|t v buf U X];
    try (pose proof (proj2 (mute_iff _ _ Y) U) as Q).
  - exists r. split; [|reflexivity]. apply method_iff in W; [|assumption]. destruct t; cbn [g_encode]; rewrite W; exact E.
  - exists MDone. split; [|reflexivity]. cbn [g_encode]. rewrite Q. apply escaped_escape in E. now subst.
  - exists MDone. split; [|reflexivity]. cbn [g_encode]. rewrite Q, <- number_format. destruct w; congruence || reflexivity.
  - exists MDone. split; [|reflexivity]. cbn [g_encode]. rewrite Q, <- format_number. destruct w; congruence || reflexivity.
  - exists MDone. split; [|reflexivity]. cbn [g_encode]. rewrite Q. now destruct b.
  - exists MDone. split; [|reflexivity]. cbn [g_encode]. now rewrite Q.
  - destruct (IH Y) as (r' & E & R). exists r'. split; [|assumption]. cbn [g_encode]. now rewrite Q.
  - exists (MFail (EText "unsupported type")). split; [|reflexivity].
    destruct t as [n|n|n w|n w|n c z|n t|t]; try destruct w; cbn [unwritable] in X; try contradiction; cbn [g_encode]; rewrite Q; try reflexivity;
      destruct v; reflexivity.
Qed.

Lemma write_lead n buf first : g_write_tag n buf first = buf ++ lead n first.
Proof. reflexivity. Qed.

Definition all_typed (t : gtype) (l : list gval) : Prop := Forall (typed t) l.
Lemma typed_slice n e l : typed (GSlice n e) (VSlice (Some l)) -> Forall (typed e) l.
Proof. cbn. induction l as [|v l IH]; [constructor|]. intros [A H]. constructor; [assumption|now apply IH]. Qed.

Lemma encode_all_sound n t : forall l buf first buf' first' r, Forall (typed t) l -> g_encode_all M n t l buf first = (buf', first', r) ->
  items_written M n t l buf first buf' first' (ended r).
Proof.
  induction l as [|v l IH]; intros buf first buf' first' r F; cbn [g_encode_all].
  - intros [= <- <- <-]. constructor.
  - inversion F as [|? ? Y F']; subst. rewrite write_lead. destruct (g_encode M t v (buf ++ lead n first)) as [b e] eqn:E.
    apply encode_sound in E; [|assumption]. destruct e.
    + intros G. apply iw_next with (buf1 := b); [assumption|now apply IH].
    + intros [= <- <- <-]. apply iw_stop; [assumption|discriminate].
    + intros [= <- <- <-]. apply iw_stop; [assumption|discriminate].
Qed.
Lemma encode_all_complete n t l buf first buf' first' r : Forall (typed t) l -> items_written M n t l buf first buf' first' r ->
  exists r', g_encode_all M n t l buf first = (buf', first', r') /\ ended r' = r.
Proof.
  intros F W. induction W as [buf first|v l buf first buf1 buf2 first2 r V W IH|v l buf first buf1 r V N].
  - exists MDone. now split.
  - inversion F as [|? ? Y F']; subst. destruct (encode_complete _ _ _ _ _ Y V) as (e & E & R). apply ended_good in R. subst e.
    cbn [g_encode_all]. rewrite write_lead, E. now apply IH.
  - inversion F as [|? ? Y F']; subst. destruct (encode_complete _ _ _ _ _ Y V) as (e & E & R). exists e.
    cbn [g_encode_all]. rewrite write_lead, E. subst r. destruct e; [now destruct N|now split..].
Qed.

Lemma is_zero_iff t v : typed t v -> g_is_zero t v <> Panic -> (g_is_zero t v = Ok true <-> vanishes t v).
Proof.
  unfold vanishes. intros Y N. destruct t as [n|n|n w|n w|n c z|n t|t], v as [s|b|y|y|d|l|p]; try contradiction; cbn in *.
  - destruct s; split; congruence.
  - destruct b; split; cbn; congruence.
  - rewrite <- (Z.eqb_eq y 0) || idtac. split; [intros [= E]; apply Z.eqb_eq in E; congruence|intros [= ->]; reflexivity].
  - split; [intros [= E]; apply N.eqb_eq in E; congruence|intros [= ->]; reflexivity].
  - destruct c; [|congruence]. split; [intros [= E]; apply bytes_eqb_true in E; congruence|intros [= ->]; now rewrite bytes_eqb_refl].
  - destruct l; split; congruence.
  - destruct p; split; congruence.
Qed.
Lemma is_zero_panic t v : typed t v -> (g_is_zero t v = Panic <-> incomparable t).
Proof.
  intros Y. unfold incomparable. destruct t as [n|n|n w|n w|n c z|n t|t], v as [s|b|y|y|d|l|p]; try contradiction; cbn;
    try (split; [discriminate|intros (? & ? & ?); discriminate]).
  destruct c; split; try discriminate; [intros (? & ? & ?); discriminate|eauto|reflexivity].
Qed.
Lemma is_zero_err t v e : typed t v -> g_is_zero t v <> Err e.
Proof. intros Y. destruct t, v; try contradiction; cbn; try discriminate. now destruct comparable. Qed.

Definition nilable (t : gtype) : bool := match t with GPtr _ | GSlice _ _ => true | _ => false end.
Lemma nilable_iff t : nilable t = true <-> has_nil t.
Proof.
  unfold has_nil. destruct t; cbn; split; try discriminate; eauto; intros [[? E]|(? & ? & E)]; discriminate.
Qed.
Lemma incomparable_no_nil t : incomparable t -> ~ has_nil t.
Proof. intros (n & z & ->) [[? E]|(? & ? & E)]; discriminate. Qed.

Lemma field_sound f v buf first buf' first' r : typed (gf_type f) v -> ~ no_field (gf_tag f) ->
  g_marshal_field M f v buf first = (buf', first', r) -> field_written M f v buf first buf' first' (ended r).
Proof.
  intros Y K. unfold g_marshal_field. destruct (tag_parts_exist (gf_tag f)) as [o T]. fold (nilable (gf_type f)).
  destruct (tag_parts_name _ _ _ T) as [_ Q]. set (n := tag_name (gf_tag f)) in *.
  assert (O : (negb (tag_hash n) && negb (tag_req (gf_tag f)))%bool = false <-> demanded n o).
  { unfold demanded. rewrite <- hash_iff, <- Q. destruct (tag_hash n), (tag_req (gf_tag f)); cbn; intuition congruence. }
  set (om := (negb (tag_hash n) && negb (tag_req (gf_tag f)))%bool) in *. clearbody om.
  destruct (om && negb (nilable (gf_type f)) && negb (gf_exported f))%bool eqn:C.
  - intros [= <- <- <-]. apply Bool.andb_true_iff in C. destruct C as [C X]. apply Bool.andb_true_iff in C. destruct C as [_ C].
    apply Bool.negb_true_iff in X, C. apply fw_hidden with (n := n) (o := o); try assumption. right. left. rewrite <- nilable_iff. congruence.
  - assert (Write : (demanded n o \/ ~ incomparable (gf_type f) /\ ~ vanishes (gf_type f) v) ->
      (if gf_exported f then
        match g_method M (gf_type f) v with
        | Some m => let '(buf', r) := m (g_write_tag n buf first) in (buf', false, r)
        | None =>
            match gf_type f, v with
            | GSlice _ e, VSlice l =>
                if tag_hash n then let '(buf', r) := g_encode M (gf_type f) v (g_write_tag n buf first) in (buf', false, r)
                else g_encode_all M n e match l with Some l => l | None => [] end buf first
            | _, _ => let '(buf', r) := g_encode M (gf_type f) v (g_write_tag n buf first) in (buf', false, r)
            end
        end
      else (buf, first, MPanic)) = (buf', first', r) -> field_written M f v buf first buf' first' (ended r)).
    { intros DM. destruct (gf_exported f) eqn:X.
      2: { intros [= <- <- <-]. apply fw_hidden with (n := n) (o := o); try assumption. tauto. }
      destruct (g_method M (gf_type f) v) as [m|] eqn:G.
      - apply method_iff in G; [|assumption]. rewrite write_lead. destruct (m (buf ++ lead n first)) as [b e] eqn:E. intros [= <- <- <-].
        apply fw_value with (n := n) (o := o); try assumption; [right; left; eauto|]. now apply vw_own with (m := m).
      - pose proof (proj1 (mute_iff _ _ Y) G) as U.
        assert (P : (n = B "#" \/ (exists m, writes_itself M (gf_type f) v m) \/ forall k e, gf_type f <> GSlice k e) ->
          (let '(buf', r) := g_encode M (gf_type f) v (g_write_tag n buf first) in (buf', false, r)) = (buf', first', r) ->
          field_written M f v buf first buf' first' (ended r)).
        { intros H. rewrite write_lead. destruct (g_encode M (gf_type f) v (buf ++ lead n first)) as [b e] eqn:E. intros [= <- <- <-].
          apply fw_value with (n := n) (o := o); try assumption. now apply encode_sound. }
        destruct (gf_type f) as [a|a|a w|a w|a c z|a t|t] eqn:TT; try (apply P; right; right; discriminate).
        destruct v as [| | | | |l|]; try contradiction. destruct (tag_hash n) eqn:H.
        + apply P. left. now apply hash_iff.
        + intros E. apply fw_slice with (n := n) (o := o) (k := a) (e := t); try assumption; rewrite ?TT; try assumption; try reflexivity.
          * destruct DM as [|[_ DM]]; [now left|]. right. intros ->. now apply DM.
          * rewrite <- hash_iff. congruence.
          * apply encode_all_sound; [|assumption]. destruct l as [l|]; [|constructor]. now apply typed_slice in Y. }
    destruct om.
    + assert (DM : ~ demanded n o) by (rewrite <- O; discriminate).
      destruct (g_is_zero (gf_type f) v) as [[|]|e|] eqn:Z.
      * intros [= <- <- <-]. apply fw_omitted with (n := n) (o := o); try assumption.
        -- cbn in C. destruct (gf_exported f); [now left|]. right. apply nilable_iff. destruct (nilable (gf_type f)); [reflexivity|discriminate].
        -- rewrite <- is_zero_panic by eassumption. congruence.
        -- apply is_zero_iff; [assumption|congruence|assumption].
      * apply Write. right. split; [rewrite <- is_zero_panic by eassumption; congruence|].
        rewrite <- is_zero_iff; [congruence|assumption|congruence].
      * now apply is_zero_err in Z.
      * intros [= <- <- <-]. apply fw_incomparable with (n := n) (o := o); try assumption. now apply is_zero_panic in Z.
    + apply Write. left. now apply O.
Qed.

Lemma field_complete f v buf first buf' first' r : typed (gf_type f) v -> field_written M f v buf first buf' first' r ->
  exists r', ended r' = r /\
    (if tag_skips (gf_tag f) then (buf, first, MDone) else g_marshal_field M f v buf first) = (buf', first', r').
Proof.
  intros Y W.
  destruct (tag_skips (gf_tag f)) eqn:K.
  { apply skips_iff in K. destruct W; try contradiction. exists MDone. now split. }
  assert (K' : ~ no_field (gf_tag f)) by (rewrite <- skips_iff; congruence).
  unfold g_marshal_field. fold (nilable (gf_type f)).
  assert (O : forall n o, tag_parts (gf_tag f) n o -> tag_name (gf_tag f) = n /\
     ((negb (tag_hash (tag_name (gf_tag f))) && negb (tag_req (gf_tag f)))%bool = false <-> demanded n o)).
  { intros n o T. destruct (tag_parts_name _ _ _ T) as [E Q]. split; [assumption|]. rewrite E.
    unfold demanded. rewrite <- hash_iff, <- Q. destruct (tag_hash n), (tag_req (gf_tag f)); cbn; intuition congruence. }
  set (om := (negb (tag_hash (tag_name (gf_tag f))) && negb (tag_req (gf_tag f)))%bool) in *. clearbody om.
  destruct W as [v buf first A|n o v buf first _ T DM HN IC V|n o v buf first _ T DM IC|n o v buf first _ T X DM
    |n o k e l buf first buf' first' r _ T X DM H TT U W|n o v buf first buf' r _ T X DM H W]; try contradiction;
    destruct (O n o T) as [E D]; clear O; rewrite ?E.
  - destruct om; [|tauto]. assert (Z : g_is_zero (gf_type f) v = Ok true).
    { apply is_zero_iff; [assumption| |assumption]. rewrite is_zero_panic by assumption. assumption. }
    rewrite Z. exists MDone. split; [reflexivity|].
    destruct HN as [X|HN]; [rewrite X, Bool.andb_comm; reflexivity|]. apply nilable_iff in HN. now rewrite HN.
  - destruct om; [|tauto]. exists MPanic. split; [reflexivity|]. rewrite (proj2 (is_zero_panic _ _ Y) IC).
    now destruct (true && _ && _)%bool.
  - exists MPanic. split; [reflexivity|]. rewrite X. destruct (om && negb (nilable (gf_type f)) && negb false)%bool eqn:C; [reflexivity|].
    destruct om; [|reflexivity]. cbn in C.
    destruct (g_is_zero (gf_type f) v) as [[|]|e|] eqn:Z; try reflexivity.
    exfalso. apply is_zero_iff in Z; [|assumption|congruence]. destruct DM as [DM|[DM|DM]]; [|apply DM|now apply DM].
    + apply D in DM. discriminate.
    + apply nilable_iff. now destruct (nilable (gf_type f)).
  - rewrite X, (proj2 (mute_iff _ _ Y) U).
    assert (Z : (if om then g_is_zero (gf_type f) (VSlice l) else Ok false) = Ok false).
    { destruct om; [|reflexivity]. destruct DM as [DM|DM]; [apply D in DM; discriminate|]. rewrite TT. cbn. now destruct l. }
    rewrite Z, Bool.andb_false_r. rewrite TT. rewrite TT in Y.
    rewrite <- hash_iff in H. apply Bool.not_true_iff_false in H. rewrite H.
    destruct (encode_all_complete n e match l with Some l => l | None => [] end buf first buf' first' r) as (r' & G & R); [|assumption|].
    + destruct l as [l|]; [now apply typed_slice in Y|constructor].
    + exists r'. now split.
  - rewrite X, Bool.andb_false_r.
    assert (Z : (if om then g_is_zero (gf_type f) v else Ok false) = Ok false).
    { destruct om; [|reflexivity]. destruct DM as [DM|[IC V]]; [apply D in DM; discriminate|].
      rewrite <- is_zero_panic in IC by eassumption. rewrite <- is_zero_iff in V by eassumption.
      destruct (g_is_zero (gf_type f) v) as [[|]|z|] eqn:Q; try congruence. now apply is_zero_err in Q. }
    rewrite Z. destruct (encode_complete _ _ _ _ _ Y W) as (r' & G & R). exists r'. split; [assumption|].
    destruct (g_method M (gf_type f) v) as [m|] eqn:Q.
    + rewrite write_lead. replace (m (buf ++ lead n first)) with (buf', r'); [reflexivity|]. rewrite <- G.
      destruct (gf_type f); cbn [g_encode]; rewrite Q; reflexivity.
    + assert (P : (let '(b, e) := g_encode M (gf_type f) v (g_write_tag n buf first) in (b, false, e)) = (buf', false, r')) by now rewrite write_lead, G.
      destruct (gf_type f) as [a|a|a w|a w|a c z|a t|t] eqn:TT; try exact P.
      destruct v as [| | | | |l|]; try contradiction. destruct H as [H|[[m H]|H]].
      * apply hash_iff in H. now rewrite H.
      * apply method_iff in H; [|assumption]. congruence.
      * now destruct (H a t).
Qed.

Lemma marshal_sound fs : forall vs buf first buf' e, Forall2 (fun f v => typed (gf_type f) v) fs vs ->
  g_marshal_fields M fs vs buf first = (buf', e) -> struct_written M fs vs buf first buf' (concluded e).
Proof.
  intros vs buf first buf' e F. revert buf first. induction F as [|f v fs vs Y F IH]; intros buf first.
  - intros [= <- <-]. constructor.
  - cbn [g_marshal_fields]. destruct (tag_skips (gf_tag f)) eqn:K.
    + intros E. apply skips_iff in K. apply sw_next with (buf1 := buf) (first1 := first); [now constructor|now apply IH].
    + assert (K' : ~ no_field (gf_tag f)) by (rewrite <- skips_iff; congruence).
      destruct (g_marshal_field M f v buf first) as [[b fi] r] eqn:E. apply field_sound in E; try assumption.
      destruct r; [intros G; apply sw_next with (buf1 := b) (first1 := fi); [assumption|now apply IH]|..];
        intros [= <- <-]; change (concluded _) with (conclude f (ended (MFail e0))) || change (concluded _) with (conclude f (ended MPanic));
        apply sw_stop with (first1 := fi); try assumption; try discriminate; clear - F; induction F; cbn; congruence.
Qed.
Lemma marshal_complete fs vs buf first buf' c : Forall2 (fun f v => typed (gf_type f) v) fs vs ->
  struct_written M fs vs buf first buf' c -> exists e, g_marshal_fields M fs vs buf first = (buf', e) /\ concluded e = c.
Proof.
  intros F W. induction W as [buf first|f fs v vs buf first buf1 first1 buf2 c W1 W2 IH|f fs v vs buf first buf1 first1 r W1 N L].
  - exists EndDone. now split.
  - inversion F as [|? ? ? ? Y F']; subst. destruct (field_complete _ _ _ _ _ _ _ Y W1) as (r & R & E). apply ended_good in R. subst r.
    cbn [g_marshal_fields]. destruct (tag_skips (gf_tag f)); [injection E as -> ->|rewrite E]; now apply IH.
  - inversion F as [|? ? ? ? Y F']; subst. destruct (field_complete _ _ _ _ _ _ _ Y W1) as (r' & R & E). exists (on_field f r').
    rewrite concluded_field, R. split; [|reflexivity].
    cbn [g_marshal_fields]. destruct (tag_skips (gf_tag f)).
    + injection E as _ _ E. subst r' r. now destruct N.
    + rewrite E. subst r. destruct r'; try reflexivity. now destruct N.
Qed.
End Write.
