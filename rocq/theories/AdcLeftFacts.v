(** What ADC messages hold after decoding failed (for C118). *)
From Verif Require Import Base BaseFacts Num Base32 Tiger AdcText AdcValue AdcMessage AdcPacket AdcLeft.
From Verif Require Import SpecText SpecHash SpecAdc SpecAdcMessage SpecAdcRead SpecAdcInto SpecAdcLeft.
From Verif Require Import NumFacts NumSpec Base32Facts TigerFacts AdcTextFacts AdcValueFacts AdcCustomFacts AdcMessageFacts AdcReadFacts AdcReadPackets AdcIntoFacts.

Lemma err_iff {A} (r : res A) : (exists e, r = Err e) <-> (forall v, r <> Ok v) /\ r <> Panic.
Proof.
  split.
  - intros (e & ->). split; discriminate.
  - intros [N P]. destruct r as [v|e|]; [destruct (N v); reflexivity|eauto|contradiction].
Qed.

(** ** Base32 *)
Lemma fulls_firstn l : fulls l = packs (firstn (8 * (length l / 8)) l).
Proof.
  induction l as [l Hl|g t Hg IH] using by_eights.
  - rewrite Nat.div_small by exact Hl. now destruct (pack_short l Hl) as [_ ->].
  - destruct (pack_full g t Hg) as [_ ->]. rewrite app_length, Hg. replace (8 + length t) with (length t + 1 * 8) by lia. rewrite Nat.div_add by lia.
    rewrite firstn_app, Hg, firstn_all2 by lia. replace (8 * (length t / 8 + 1) - 8) with (8 * (length t / 8)) by lia.
    destruct (pack_full g (firstn (8 * (length t / 8)) t) Hg) as [-> _]. now rewrite IH.
Qed.

Lemma packs_groups l : Forall (fun v => v < 32)%N l -> length l = 8 * (length l / 8) -> flat_map bits5 l = flat_map bits8 (packs l).
Proof.
  intros V L. destruct (packs_bits l V) as (r & E). rewrite E. destruct (packs_length l) as [P _].
  assert (R : r = []); [|now rewrite R, app_nil_r].
  apply (f_equal (@length bool)) in E. rewrite app_length, flat_map_bits5_length, flat_map_bits8_length, P in E. unfold decoded in E.
  assert (M : length l mod 8 = 0) by (rewrite L at 1; rewrite Nat.mul_comm; apply Nat.mod_mul; lia). rewrite M in E. change (pack_bits 0 / 8) with 0 in E.
  destruct r; [reflexivity|cbn [length] in E; lia].
Qed.

Lemma sym_head_in c l vs : map sym vs = c :: l -> Forall (fun v => v < 32)%N vs -> sym_value c <> None.
Proof.
  destruct vs as [|v vs]; [discriminate|]. cbn [map]. intros [= <- _] F. inversion F; subst. now rewrite (proj1 (proj2 (sym_facts v ltac:(assumption)))).
Qed.

Lemma groups_iff x b : (exists e, b32_decode [] (unbroken x) = (b, Some e)) <-> (forall b', ~ base32_read x b') /\ groups x b.
Proof.
  destruct (decode_char (unbroken x) [] ltac:(cbn; lia)) as (ws & tail & E & W & T & D). cbn [app] in D.
  assert (J : length ws mod 8 < 8) by (apply Nat.mod_upper_bound; lia). pose proof (Nat.div_mod (length ws) 8 ltac:(lia)) as DM.
  assert (LF : length (firstn (8 * (length ws / 8)) ws) = 8 * (length ws / 8)) by (rewrite firstn_length; lia).
  split.
  - intros (e & H). rewrite D in H. destruct (pad_ok (length ws mod 8) tail) eqn:P; [discriminate|]. injection H as <- <-. split.
    + intros b' R. apply base32_iff in R. rewrite D in R. discriminate.
    + exists (map sym (firstn (8 * (length ws / 8)) ws)), (map sym (skipn (8 * (length ws / 8)) ws) ++ tail).
      assert (W1 : Forall (fun v => v < 32)%N (firstn (8 * (length ws / 8)) ws)) by (now apply firstn_Forall).
      assert (L8 : 8 * (length ws / 8) = 8 * (8 * (length ws / 8) / 8)) by (rewrite (Nat.mul_comm 8 (length ws / 8)), Nat.div_mul by lia; lia).
      split; [now rewrite app_assoc, <- map_app, firstn_skipn|]. split.
      * exists (firstn (8 * (length ws / 8)) ws). split; [now apply symbols_map|]. rewrite fulls_firstn. symmetry. apply packs_groups; [exact W1|]. rewrite LF. exact L8.
      * rewrite map_length, LF. split; [exact L8|]. intros (t8 & rest & vs & E8 & L & F). apply symbols_map_inv in F. destruct F as [-> F]. rewrite map_length in L.
        set (w2 := skipn (8 * (length ws / 8)) ws) in *. assert (L2 : length w2 < 8) by (unfold w2; rewrite skipn_length; clear - DM J; lia).
        apply app_eq_app in E8. destruct E8 as (l & [[A B']|[A B']]).
        -- apply (f_equal (@length byte)) in A. rewrite app_length, !map_length in A. lia.
        -- destruct l as [|c l]; [apply (f_equal (@length byte)) in A; rewrite app_nil_r, !map_length in A; clear - A L L2; lia|].
           subst tail. cbn in T. assert (I : In c (map sym vs)) by (rewrite A; apply in_or_app; right; now left). apply in_map_iff in I. destruct I as (v & <- & I).
           rewrite Forall_forall in F. now rewrite (proj1 (proj2 (sym_facts v (F v I)))) in T.
  - intros [N (t & tail' & E' & (vs & F & G) & L & S8)]. apply symbols_map_inv in F. destruct F as [-> F]. rewrite map_length in L.
    exists err_corrupt. rewrite D. destruct (pad_ok (length ws mod 8) tail) eqn:P.
    { exfalso. apply (N (packs ws)). apply base32_iff. now rewrite D. }
    f_equal. rewrite E in E'. apply app_eq_app in E'. assert (X : exists w2, ws = vs ++ w2 /\ length w2 < 8).
    { destruct E' as (l & [[A B']|[A B']]).
      - exists (skipn (length vs) ws). assert (A' : ws = vs ++ skipn (length vs) ws /\ l = map sym (skipn (length vs) ws)).
        { clear - A F W. revert ws A W. induction F as [|v vs V F IH]; intros ws A W; [split; [reflexivity|]; cbn [map app length skipn] in *; now symmetry|].
          destruct ws as [|w ws]; [discriminate|]. cbn [map app length skipn] in *. injection A as E A. inversion W; subst.
          destruct (IH ws A ltac:(assumption)) as [A1 A2]. split; [|exact A2]. rewrite <- A1. f_equal.
          pose proof (proj1 (proj2 (sym_facts v V))) as Q. rewrite <- E in Q. rewrite (proj1 (proj2 (sym_facts w ltac:(assumption)))) in Q. congruence. }
        destruct A' as [A1 A2]. split; [exact A1|]. destruct (Nat.lt_ge_cases (length (skipn (length vs) ws)) 8) as [K|K]; [exact K|]. exfalso. apply S8.
        set (w2 := skipn (length vs) ws) in *. exists (map sym (firstn 8 w2)), (map sym (skipn 8 w2) ++ tail), (firstn 8 w2).
        split; [rewrite app_assoc, <- map_app, firstn_skipn; now rewrite <- A2|]. split; [rewrite map_length, firstn_length; lia|].
        apply symbols_map. apply firstn_Forall. rewrite A1 in W. now apply Forall_app in W.
      - destruct l as [|c l].
        + rewrite app_nil_r in A. exists []. split; [|cbn; lia]. rewrite app_nil_r. assert (K : map sym vs ++ [] = map sym ws ++ []) by (now rewrite A).
          apply symbols_prefix_unique in K; auto. symmetry. apply K.
        + subst tail. cbn in T. assert (I : In c (map sym vs)) by (rewrite A; apply in_or_app; right; now left). apply in_map_iff in I. destruct I as (v & <- & I).
          rewrite Forall_forall in F. now rewrite (proj1 (proj2 (sym_facts v (F v I)))) in T. }
    destruct X as (w2 & -> & L2). rewrite fulls_firstn, app_length.
    replace (8 * ((length vs + length w2) / 8)) with (length vs).
    2:{ rewrite L at 2. rewrite (Nat.mul_comm 8 (length vs / 8)), Nat.add_comm, Nat.div_add, Nat.div_small by lia. lia. }
    rewrite firstn_app, Nat.sub_diag, firstn_all, app_nil_r. rewrite (packs_groups vs F L) in G. symmetry. now apply bits_bytes_inj.
Qed.

Lemma part_iff x b : (exists e, b32_decode [] (unbroken x) = (b, e)) <-> decoded_part x b.
Proof.
  unfold decoded_part. split.
  - intros ([e|] & H); [right; apply groups_iff; eauto|left; now apply base32_iff].
  - intros [R|G]; [exists None; now apply base32_iff|]. apply groups_iff in G. destruct G as (e & G). eauto.
Qed.

(** ** Structures *)
Section Decode.
Variable pf : bytes -> float_result.

Lemma hash_left x old v : of_hash (hash_unmarshal_base32 old x) <> Panic ->
  (snd (hash_unmarshal_base32 old x) = v <-> exists b, decoded_part x b /\ overwritten old b v).
Proof.
  intros P. unfold hash_unmarshal_base32, b32_decode_to, overwritten in *. rewrite strip_unbroken in *.
  destruct (b32_decode [] (unbroken x)) as [b e] eqn:D. destruct (length old <? length b)%nat; [destruct P; reflexivity|].
  assert (X : (b ++ skipn (length b) old = v) <-> exists b, decoded_part x b /\ v = b ++ skipn (length b) old).
  { split.
    - intros <-. exists b. split; [|reflexivity]. apply part_iff. eauto.
    - intros (b' & R & ->). apply part_iff in R. destruct R as (e' & R). rewrite D in R. now injection R as -> _. }
  destruct e as [e|]; [exact X|]. destruct (_ =? _)%nat; exact X.
Qed.

Lemma value_left_ok k x old v : unmarshal_value pf k x old = Ok v -> value_left pf k x old = v.
Proof. unfold value_left. now intros ->. Qed.

Lemma value_left_err k x old e v : unmarshal_value pf k x old = Err e -> (value_left pf k x old = v <-> stuck_value k x old v).
Proof.
  intros E. unfold value_left. rewrite E. destruct k; cbn [stuck_value]; try (split; intros H; now symmetry).
  apply hash_left. cbn [unmarshal_value] in E. rewrite E. discriminate.
Qed.

Lemma value_err k x old : simple k = true -> sized k old -> ((exists e, unmarshal_value pf k x old = Err e) <-> (forall y, ~ value_read pf k x old y) /\ ~ value_crash k x).
Proof.
  intros K Z. rewrite err_iff, (value_crash_iff pf k x old K Z). split; intros [N C]; (split; [|exact C]); intros y H; apply (N y); now apply (value_iff pf k x old y Z).
Qed.

Lemma named_err k vs old : simple k = true -> sized k old -> ((exists e, unmarshal_tagged pf k vs old = Err e) <-> (forall y, ~ named_read pf k vs old y) /\ ~ named_crash k vs).
Proof.
  intros K Z. rewrite err_iff, (named_crash_iff pf k vs old K Z). split; intros [N C]; (split; [|exact C]); intros y H; apply (N y); now apply (named_iff pf k vs old y Z).
Qed.

Lemma tagged_left_err k vs old e v : unmarshal_tagged pf k vs old = Err e ->
  (tagged_left pf k vs old = v <-> exists x more, vs = x :: more /\ stuck_value k x old v).
Proof.
  intros E. unfold tagged_left. rewrite E. destruct vs as [|x more]; [discriminate E|]. cbn [unmarshal_tagged] in E.
  assert (X : (if unmarshaler k then value_left pf k x old else old) = v <-> stuck_value k x old v).
  { destruct (unmarshaler k) eqn:U; [now apply (value_left_err k x old e)|]. destruct k; try discriminate U; cbn [stuck_value]; split; intros H; now symmetry. }
  rewrite X. split; [eauto|]. now intros (? & ? & [= <- <-] & H).
Qed.

Lemma stuck_iff fs : forall ws old v, forallb short_tag fs = true -> forallb (fun f => simple (f_kind f)) fs = true -> sized_all fs old ->
  ((exists e, unmarshal_fields pf fs ws old = Err e) /\ v = fields_left pf fs ws old <-> fields_stuck pf fs ws old v).
Proof.
  induction fs as [|f fs IH]; intros ws old v ST SM Z.
  - cbn. split; [intros [(e & H) _]; discriminate|contradiction].
  - cbn [forallb] in ST, SM. apply andb_true_iff in ST, SM. destruct ST as [S1 S2], SM as [M1 M2]. destruct old as [o old], v as [x v]. cbn [sized_all fst snd] in Z. destruct Z as [Z1 Z2].
    cbn [unmarshal_fields fields_left fields_stuck fst snd]. unfold positional. destruct (bytes_eqb (f_tag f) (B "#")) eqn:T.
    + apply bytes_eqb_true in T. destruct ws as [|w ws].
      * split; [intros [(e & H) _]; discriminate|]. intros [[_ (w & ws' & H & _)]|[N _]]; [discriminate|contradiction].
      * split.
        -- intros [(e & H) E]. left. split; [exact T|]. exists w, ws. split; [reflexivity|]. injection E as -> ->.
           destruct (unmarshal_value pf (f_kind f) w o) as [y|e'|] eqn:U; cbn [bind] in H; [|left|discriminate].
           ++ right. rewrite (value_left_ok _ _ _ _ U). split; [now apply (value_iff pf _ w o y Z1)|]. apply (IH ws old _ S2 M2 Z2). split; [|reflexivity].
              destruct (unmarshal_fields pf fs ws old); cbn [bind] in H; try discriminate. eauto.
           ++ split; [|reflexivity]. destruct (proj1 (value_err _ w o M1 Z1) ltac:(eauto)) as [N C]. split; [exact N|]. split; [exact C|]. now apply (value_left_err _ w o e').
        -- intros [[_ (w' & ws' & [= <- <-] & H)]|[N _]]; [|contradiction]. destruct H as [[(N & C & L) E]|[R H]].
           ++ destruct (proj2 (value_err _ w o M1 Z1) (conj N C)) as (e & U). rewrite U. cbn [bind]. split; [eauto|]. f_equal; [|exact E].
              symmetry. now apply (value_left_err _ w o e).
           ++ apply (value_iff pf _ w o x Z1) in R. rewrite R. cbn [bind]. apply (IH ws old _ S2 M2 Z2) in H. destruct H as [(e & H) ->]. rewrite H. cbn [bind]. split; [eauto|].
              now rewrite (value_left_ok _ _ _ _ R).
    + assert (T' : f_tag f <> B "#") by (intros K; rewrite K in T; discriminate).
      assert (V : tagged (f_tag f) ws = values (f_tag f) ws).
      { apply values_tagged. unfold short_tag, positional in S1. rewrite T in S1. cbn [orb] in S1. now apply Nat.eqb_eq. }
      rewrite V. split.
      * intros [(e & H) E]. right. split; [exact T'|]. injection E as -> ->.
        destruct (unmarshal_tagged pf (f_kind f) (values (f_tag f) ws) o) as [y|e'|] eqn:U; cbn [bind] in H; [|left|discriminate].
        -- right. assert (TL : tagged_left pf (f_kind f) (values (f_tag f) ws) o = y) by (unfold tagged_left; now rewrite U). rewrite TL.
           split; [now apply (named_iff pf _ _ o y Z1)|]. apply (IH ws old _ S2 M2 Z2). split; [|reflexivity].
           destruct (unmarshal_fields pf fs ws old); cbn [bind] in H; try discriminate. eauto.
        -- split; [|reflexivity]. destruct (proj1 (named_err _ _ o M1 Z1) (ex_intro _ e' U)) as [N C]. split; [exact N|]. split; [exact C|]. now apply (tagged_left_err _ _ o e').
      * intros [[N _]|[_ H]]; [contradiction|]. destruct H as [[(N & C & L) E]|[R H]].
        -- destruct (proj2 (named_err _ _ o M1 Z1) (conj N C)) as (e & U). rewrite U. cbn [bind]. split; [eauto|]. f_equal; [|exact E].
           symmetry. now apply (tagged_left_err _ _ o e).
        -- apply (named_iff pf _ _ o x Z1) in R. rewrite R. cbn [bind]. apply (IH ws old _ S2 M2 Z2) in H. destruct H as [(e & H) ->]. rewrite H. cbn [bind]. split; [eauto|].
           f_equal. unfold tagged_left. now rewrite R.
Qed.
End Decode.

(** ** Features *)
Fixpoint changes_left (ch : list (bytes * bool)) (m : fmap) : fmap :=
  match ch with
  | [] => m
  | (n, v) :: r => if (length n =? 4)%nat then changes_left r (fm_set n v m) else m
  end.

Lemma loop_ok_changes v l : forall m m', mod_loop v l m = Ok m' -> forall r, changes_left (map (fun f => (f, v)) l ++ r) m = changes_left r m'.
Proof.
  induction l as [|n l IH]; intros m m' H r; cbn [mod_loop map app changes_left] in *.
  - now injection H as ->.
  - unfold feature_unmarshal in H. destruct (length n =? 4)%nat; [|discriminate]. cbn [bind] in H. now apply IH.
Qed.
Lemma loop_err_changes v l : forall m e, mod_loop v l m = Err e -> forall r, changes_left (map (fun f => (f, v)) l ++ r) m = mod_loop_left v l m.
Proof.
  induction l as [|n l IH]; intros m e H r; cbn [mod_loop mod_loop_left map app changes_left] in *; [discriminate|].
  unfold feature_unmarshal in *. destruct (length n =? 4)%nat; [|reflexivity]. cbn [bind] in H. eapply IH. exact H.
Qed.
Lemma loop_left_changes v l : forall m, mod_loop_left v l m = changes_left (map (fun f => (f, v)) l) m.
Proof.
  induction l as [|n l IH]; intros m; cbn [mod_loop_left map changes_left]; [reflexivity|].
  unfold feature_unmarshal. destruct (length n =? 4)%nat; [apply IH|reflexivity].
Qed.
Lemma loop_err v l : forall m, (exists e, mod_loop v l m = Err e) <-> ~ Forall (fun f => length f = 4) l.
Proof.
  intros m. rewrite err_iff. split.
  - intros [N _] F. destruct (mod_loop_ok v l m F) as (m' & E & _). now apply (N m').
  - intros N. split; [intros m' E; apply N; eapply mod_loop_err; exact E|apply mod_loop_total].
Qed.

(** The changes of the two loops, adc/types.go:138-151. *)
Definition changes (add rm : list bytes) : list (bytes * bool) := map (fun f => (f, false)) rm ++ map (fun f => (f, true)) add.

Lemma mod_left_changes pf s ws m : separated s ws ->
  modfeatures_left pf s m = changes_left (changes (map unescape (values (B "AD") ws)) (map unescape (values (B "RM") ws))) m.
Proof.
  intros W. unfold modfeatures_left, changes. rewrite (mod_fields_decoded pf s ws W). destruct (mod_loop false _ m) as [m1|e|] eqn:L.
  - rewrite (loop_ok_changes _ _ _ _ L). apply loop_left_changes.
  - symmetry. eapply loop_err_changes. exact L.
  - now apply mod_loop_total in L.
Qed.

Lemma modfeatures_err pf s ws m : separated s ws ->
  ((exists e, modfeatures_unmarshal pf s m = Err e) <-> ~ Forall (fun c => length (fst c) = 4) (changes (map unescape (values (B "AD") ws)) (map unescape (values (B "RM") ws)))).
Proof.
  intros W. unfold modfeatures_unmarshal, changes. rewrite (mod_fields_decoded pf s ws W). cbn [bind].
  assert (X : forall v l, Forall (fun c : bytes * bool => length (fst c) = 4) (map (fun f => (f, v)) l) <-> Forall (fun f => length f = 4) l).
  { intros v l. rewrite Forall_map. reflexivity. }
  rewrite Forall_app, !X. destruct (mod_loop false _ m) as [m1|e|] eqn:L; cbn [bind].
  - rewrite (loop_err true _ m1). apply mod_loop_err in L. tauto.
  - split; [|eauto]. intros _ [F _]. now apply (proj1 (loop_err false _ m) (ex_intro _ e L)).
  - now apply mod_loop_total in L.
Qed.

Lemma first_bad (l : list (bytes * bool)) : ~ Forall (fun c => length (fst c) = 4) l <->
  exists done bad rest, l = done ++ bad :: rest /\ Forall (fun c => length (fst c) = 4) done /\ length (fst bad) <> 4.
Proof.
  split.
  - induction l as [|c l IH]; intros N; [destruct N; constructor|]. destruct (Nat.eq_dec (length (fst c)) 4) as [E|E].
    + destruct IH as (d & b & r & -> & F & L); [intros F; apply N; now constructor|]. exists (c :: d), b, r. split; [reflexivity|]. split; [now constructor|exact L].
    + exists [], c, l. split; [reflexivity|]. split; [constructor|exact E].
  - intros (d & b & r & -> & F & L) G. apply Forall_app in G. destruct G as [_ G]. now inversion G.
Qed.

Lemma changes_left_done done bad rest : Forall (fun c => length (fst c) = 4) done -> length (fst bad) <> 4 ->
  forall m, changes_left (done ++ bad :: rest) m = put_all done m.
Proof.
  intros F L. induction F as [|[n v] l E F IH]; intros m; cbn [app changes_left].
  - destruct bad as [n v]. cbn [fst] in L. now destruct (Nat.eqb_spec (length n) 4).
  - cbn [fst] in E. rewrite E, Nat.eqb_refl. apply IH.
Qed.

Lemma put_all_last ch : forall m k, fm_get k (put_all ch m) = match last_change k ch with Some b => Some b | None => fm_get k m end.
Proof.
  unfold put_all. induction ch as [|[n v] ch IH]; intros m k; [reflexivity|]. cbn [fold_left last_change]. rewrite IH, fm_set_get.
  destruct (last_change k ch); [reflexivity|]. now destruct (bytes_eqb k n).
Qed.

Lemma sup_stuck_iff pf s ws old m : distinct old -> separated s ws ->
  ((exists e, modfeatures_unmarshal pf s old = Err e) /\ same_message (ASup m) (ASup (modfeatures_left pf s old)) <-> features_stuck ws old m).
Proof.
  intros O W. rewrite (modfeatures_err pf s ws old W), first_bad, (mod_left_changes pf s ws old W). unfold features_stuck, changes. cbn [same_message].
  assert (G : forall done k b, In (k, b) (put_all done old) <-> last_change k done = Some b \/ (last_change k done = None /\ In (k, b) old)).
  { intros done k b. rewrite (entries_in _ (put_all_distinct done old O)), put_all_last, (entries_in old O). destruct (last_change k done); intuition congruence. }
  split.
  - intros [(done & bad & rest & E & F & L) (D & D' & S)]. rewrite E in *. exists (map unescape (values (B "AD") ws)), (map unescape (values (B "RM") ws)), done, bad, rest.
    split; [now apply unescapes|]. split; [now apply unescapes|]. split; [exact E|]. split; [exact F|]. split; [exact L|]. split; [exact D|].
    intros k b. now rewrite S, (changes_left_done _ _ _ F L), G.
  - intros (add & rm & done & bad & rest & A & R & E & F & L & D & S). apply unescapes in A, R. subst add rm. rewrite E. split; [now exists done, bad, rest|].
    rewrite (changes_left_done _ _ _ F L). split; [exact D|]. split; [now apply put_all_distinct|]. intros k b. now rewrite S, G.
Qed.

(** ** Numbers *)
Lemma digits_grow d : forall a b, (a <= b)%N -> (a <= fold_left (fun a c => 10 * a + (b2n c - 48))%N d b)%N.
Proof. induction d as [|c d IH]; intros a b H; cbn [fold_left]; [exact H|]. apply IH. lia. Qed.

Lemma leading_split s : forall a, exists d r, s = d ++ r /\ Forall digit_char d /\ leading_value a s = fold_left (fun a c => 10 * a + (b2n c - 48))%N d a /\
  match r with [] => True | c :: _ => ~ digit_char c end.
Proof.
  induction s as [|c s IH]; intros a; cbn [leading_value].
  - exists [], []. repeat split; constructor.
  - destruct (is_digit c) eqn:E.
    + destruct (digit_val_range c E) as [V R]. destruct (IH (a * 10 + digit_val c)%N) as (d & r & -> & F & L & H).
      exists (c :: d), r. split; [reflexivity|]. split; [now constructor|]. split; [|exact H]. rewrite L, V. cbn [fold_left]. f_equal. lia.
    + exists [], (c :: s). split; [reflexivity|]. split; [constructor|]. split; [reflexivity|]. intros K. apply is_digit_iff in K. congruence.
Qed.

Lemma leading_prefix d r : Forall digit_char d -> (dec_value d <= leading_value 0 (d ++ r))%N.
Proof.
  intros F. destruct (leading_split (d ++ r) 0) as (d' & r' & E & F' & L & H). rewrite L. unfold dec_value.
  apply app_eq_app in E. destruct E as (l & [[-> E]|[-> E]]).
  - destruct l as [|c l]; [rewrite app_nil_r; apply N.le_refl|]. subst r'. exfalso. apply H. apply Forall_app in F. destruct F as [_ F]. now inversion F.
  - rewrite fold_left_app. apply digits_grow, N.le_refl.
Qed.

(** A text without its sign. *)
Definition unsigned (x : bytes) : bytes := match x with c :: t => if (beq c "-" || beq c "+")%bool then t else x | [] => [] end.

Lemma digit_no_sign c : digit_char c -> beq c "-" = false /\ beq c "+" = false.
Proof. intros D. split; apply beq_false; intros ->; unfold digit_char in D; cbn in D; lia. Qed.

Lemma too_large_iff x P : no_number x ->
  (too_large x P <-> (P <-> exists t, x = "-"%byte :: t) /\ ((2 ^ 64 <= leading_value 0 (unsigned x))%N \/ unsigned x <> [] /\ Forall digit_char (unsigned x))).
Proof.
  intros NN. unfold too_large. split.
  - intros (sign & ds & rest & -> & SG & SP & N0 & F & B').
    assert (U : unsigned (sign ++ ds ++ rest) = ds ++ rest).
    { destruct SG as [->|[->| ->]]; try reflexivity. destruct ds as [|c ds]; [contradiction|]. inversion F; subst. cbn [app unsigned].
      destruct (digit_no_sign c ltac:(assumption)) as [-> ->]. reflexivity. }
    rewrite U. split.
    + rewrite SP. destruct SG as [->|[->| ->]].
      * split; [discriminate|]. intros (t & E). destruct ds as [|c ds]; [contradiction|]. injection E as -> _. inversion F as [|? ? D ?]; subst. destruct (digit_no_sign _ D). discriminate.
      * split; [discriminate|]. intros (t & E). discriminate.
      * split; [intros _; now exists (ds ++ rest)|reflexivity].
    + destruct B' as [B'|[-> _]]; [left; eapply N.le_trans; [exact B'|now apply leading_prefix]|right]. rewrite app_nil_r. auto.
  - intros [SP B'].
    set (sign := match x with c :: _ => if (beq c "-" || beq c "+")%bool then [c] else [] | [] => [] end).
    assert (E : x = sign ++ unsigned x) by (unfold sign; destruct x as [|c t]; [reflexivity|]; cbn [unsigned]; now destruct (_ || _)%bool).
    assert (SG : (sign = [] \/ sign = B "+" \/ sign = B "-") /\ (sign = B "-" <-> exists t, x = "-"%byte :: t)).
    { unfold sign. destruct x as [|c t].
      - split; [auto|]. split; [discriminate|]. intros (t & E'). discriminate.
      - destruct (beq_spec c "-") as [->|N1]; [split; [auto|]; split; [intros _; now exists t|reflexivity]|].
        destruct (beq_spec c "+") as [->|N2]; cbn [orb]; (split; [auto|]; split; [discriminate|]; intros (t' & [= K _]); congruence). }
    destruct SG as [SG SM].
    destruct (leading_split (unsigned x) 0) as (d & r & U & F & L & H).
    assert (X : (2 ^ 64 <= dec_value d)%N \/ r = [] /\ d <> []).
    { destruct B' as [B'|[B1 B2]]; [left; now rewrite L in B'|right]. rewrite U in B1, B2. apply Forall_app in B2. destruct B2 as [_ B2].
      destruct r as [|c r]; [|inversion B2; contradiction]. rewrite app_nil_r in B1. auto. }
    exists sign, d, r. split; [now rewrite <- U|]. split; [exact SG|]. split; [now rewrite SM|].
    split; [destruct X as [X|[_ X]]; [intros ->; cbn in X; lia|exact X]|]. split; [exact F|]. destruct X as [X|[X _]]; [now left|]. right. split; [exact X|exact NN].
Qed.

Lemma no_number_err x : no_number x <-> exists e, parse_int64 x = Err e.
Proof.
  unfold no_number. rewrite err_iff. split.
  - intros N. split; [|apply parse_int64_total]. intros z H. apply signed_int in H. now apply (N z).
  - intros [N _] z D R. apply (N z). now apply signed_int.
Qed.

Lemma int_value x : no_number x -> parse_int64_value x =
  if ((2 ^ 64 <=? leading_value 0 (unsigned x))%N || (negb (bytes_eqb (unsigned x) []) && forallb is_digit (unsigned x)))%bool
  then if has_prefix (B "-") x then (- 2 ^ 63)%Z else (2 ^ 63 - 1)%Z else 0%Z.
Proof.
  intros NN. destruct x as [|c t]; [reflexivity|]. apply no_number_err in NN. destruct NN as (e & NN). unfold parse_int64_value. rewrite NN.
  assert (HM : has_prefix (B "-") (c :: t) = beq "-" c) by (destruct t; apply andb_true_r). assert (HP : has_prefix (B "+") (c :: t) = beq "+" c) by (destruct t; apply andb_true_r).
  assert (C1 : beq "-" c = beq c "-") by (destruct (beq_spec c "-") as [->|N]; [reflexivity|]; apply beq_false; congruence).
  assert (C2 : beq "+" c = beq c "+") by (destruct (beq_spec c "+") as [->|N]; [reflexivity|]; apply beq_false; congruence).
  rewrite HM, HP, C1, C2. cbn [tl].
  change (if (beq c "-" || beq c "+")%bool then t else c :: t) with (unsigned (c :: t)).
  cbn [parse_int64] in NN. change (if (beq c "-" || beq c "+")%bool then t else c :: t) with (unsigned (c :: t)) in NN. revert NN. generalize (unsigned (c :: t)). intros u NN.
  change two64 with (2 ^ 64)%N. change two63 with (2 ^ 63)%Z in *.
  destruct u as [|y u].
  - injection NN as <-. reflexivity.
  - cbn [bytes_eqb negb andb]. destruct (digits_acc 0 (y :: u)) as [n|] eqn:D.
    + rewrite (digits_acc_forall _ _ _ D), orb_true_r. destruct (_ && _)%bool; [discriminate|]. injection NN as <-. reflexivity.
    + injection NN as <-. assert (FD : forallb is_digit (y :: u) = false).
      { destruct (forallb is_digit (y :: u)) eqn:F; [|reflexivity]. exfalso. revert D F. generalize 0%N. generalize (y :: u). clear. induction l as [|c l IH]; intros a; cbn [digits_acc forallb]; [discriminate|].
        destruct (is_digit c); [|discriminate]. cbn [andb]. apply IH. }
      rewrite FD, orb_false_r. destruct (_ <=? _)%N; reflexivity.
Qed.

Lemma number_left_iff x z : no_number x -> (parse_int64_value x = z <-> number_left x z).
Proof.
  intros NN. rewrite (int_value x NN). unfold number_left. rewrite !(too_large_iff x _ NN).
  set (T := (2 ^ 64 <= leading_value 0 (unsigned x))%N \/ unsigned x <> [] /\ Forall digit_char (unsigned x)).
  assert (TB : ((2 ^ 64 <=? leading_value 0 (unsigned x))%N || (negb (bytes_eqb (unsigned x) []) && forallb is_digit (unsigned x)))%bool = true <-> T).
  { unfold T. rewrite orb_true_iff, andb_true_iff, N.leb_le, negb_true_iff. assert (E1 : bytes_eqb (unsigned x) [] = false <-> unsigned x <> []) by (destruct (unsigned x); cbn; split; congruence).
    assert (E2 : forallb is_digit (unsigned x) = true <-> Forall digit_char (unsigned x)) by (rewrite forallb_forall, Forall_forall; split; intros H c I; apply is_digit_iff, H, I). tauto. }
  assert (SB : has_prefix (B "-") x = true <-> exists t, x = "-"%byte :: t).
  { rewrite has_prefix_spec. reflexivity. }
  destruct (_ || _)%bool.
  - assert (HT : T) by (now apply TB). destruct (has_prefix (B "-") x).
    + assert (HS : exists t, x = "-"%byte :: t) by (now apply SB). split; [intros <-; left; tauto|]. intros [[_ ->]|[[[A _] _]|[A _]]]; [reflexivity|tauto|tauto].
    + assert (HS : ~ exists t, x = "-"%byte :: t) by (intros K; apply SB in K; discriminate). split; [intros <-; right; left; tauto|]. intros [[[A _] _]|[[_ ->]|[_ [A _]]]]; [tauto|reflexivity|tauto].
  - assert (HT : ~ T) by (intros K; apply TB in K; discriminate). split; [intros <-; right; right; tauto|]. intros [[[_ A] _]|[[[_ A] _]|(_ & _ & ->)]]; tauto.
Qed.

(** ** Requests for files *)
Lemma denotes_unescape t t' : denotes_text t t' <-> unescape t = t'.
Proof. symmetry. apply unescape_iff. Qed.

Lemma get_stuck_iff old s g : (exists e, get_unmarshal old s = Err e) /\ g = get_left old s <-> get_stuck s old g.
Proof.
  split.
  - intros [(e & H) ->]. unfold get_unmarshal, get_left in *.
    destruct (cut " " s) as [[t s1]|] eqn:C1; [|apply cut_none in C1; now constructor]. apply cut_spec in C1. destruct C1 as [-> N1].
    destruct (cut " " s1) as [[p s2]|] eqn:C2; [|apply cut_none in C2; eapply gs_path; [reflexivity|assumption|assumption|apply unescape_denotes]].
    apply cut_spec in C2. destruct C2 as [-> N2].
    destruct (cut " " s2) as [[a s3]|] eqn:C3; [|apply cut_none in C3; eapply gs_start; [reflexivity|assumption|assumption|assumption|apply unescape_denotes|apply unescape_denotes]].
    apply cut_spec in C3. destruct C3 as [-> N3].
    destruct (parse_int64 a) as [st|ea|] eqn:P1; [|assert (NA : no_number a) by (apply no_number_err; eauto); eapply gs_start_bad; [reflexivity|assumption|assumption|assumption|exact NA|apply unescape_denotes|apply unescape_denotes|now apply number_left_iff]|now apply parse_int64_total in P1].
    assert (V1 : parse_int64_value a = st) by (unfold parse_int64_value; now rewrite P1). apply signed_int in P1. destruct P1 as [D1 R1]. rewrite V1.
    assert (Z : forall b tail s4, s3 = b ++ tail -> ~ In " "%byte b -> (tail = [] /\ s4 = [] \/ tail = " "%byte :: s4) ->
      (exists e, match parse_int64 b with
       | Ok n => match s4 with
                 | [] => Ok {| g_type := unescape t; g_path := unescape p; g_start := st; g_bytes := n; g_comp := g_comp old |}
                 | _ => if bytes_eqb s4 (B "ZL1") then Ok {| g_type := unescape t; g_path := unescape p; g_start := st; g_bytes := n; g_comp := true |} else Err (EText "ADCGET: invalid field 5") end
       | _ => Err (EText "ADCGET: unable to parse field 4") end = Err e) ->
      get_stuck (t ++ " "%byte :: p ++ " "%byte :: a ++ " "%byte :: s3) old {| g_type := unescape t; g_path := unescape p; g_start := st; g_bytes := parse_int64_value b;
         g_comp := match parse_int64 b with Ok _ => (g_comp old || bytes_eqb s4 (B "ZL1"))%bool | _ => g_comp old end |}).
    { intros b tail s4 -> N4 TL (e' & H'). destruct (parse_int64 b) as [n|eb|] eqn:P2; [| |now apply parse_int64_total in P2].
      - assert (V2 : parse_int64_value b = n) by (unfold parse_int64_value; now rewrite P2). apply signed_int in P2. destruct P2 as [D2 R2]. rewrite V2.
        destruct s4 as [|c s4]; [discriminate|]. destruct (bytes_eqb (c :: s4) (B "ZL1")) eqn:Q; [discriminate|]. rewrite orb_false_r. apply bytes_eqb_false in Q.
        destruct TL as [[_ K]| ->]; [discriminate|]. apply (gs_tail _ _ t p a b (c :: s4)); try assumption; [reflexivity|discriminate|apply unescape_denotes|apply unescape_denotes].
      - assert (NB : no_number b) by (apply no_number_err; eauto).
        apply (gs_bytes_bad _ _ t p a b tail); try assumption; [reflexivity|destruct TL as [[-> _]| ->]; eauto|apply unescape_denotes|apply unescape_denotes|now apply number_left_iff]. }
    destruct (cut " " s3) as [[b s4]|] eqn:C4.
    + apply cut_spec in C4. destruct C4 as [E4 N4]. eapply Z; [exact E4|exact N4|now right|eauto].
    + apply cut_none in C4. eapply Z; [symmetry; apply app_nil_r|exact C4|now left|eauto].
  - intros H. unfold get_unmarshal, get_left.
    destruct H as [N|t x E N1 N2 t' D1|t p x E N1 N2 N3 t' p' D1 D2|t p a x E N1 N2 N3 NA t' p' z D1 D2 L|t p a b tail E N1 N2 N3 N4 TL NB t' p' n z D1 D2 S1 I1 L|t p a b y E N1 N2 N3 N4 Y1 Y2 t' p' n z D1 D2 S1 I1 S2 I2].
    + apply cut_none in N. rewrite N. eauto.
    + subst s. change (B " ") with [" "%byte]. cbn [app]. rewrite (cut_app _ _ _ N1). apply cut_none in N2. rewrite N2. apply unescape_iff in D1. rewrite D1. eauto.
    + subst s. change (B " ") with [" "%byte]. cbn [app]. rewrite (cut_app _ _ _ N1), (cut_app _ _ _ N2). apply cut_none in N3. rewrite N3. apply unescape_iff in D1, D2. rewrite D1, D2. eauto.
    + subst s. change (B " ") with [" "%byte]. cbn [app]. rewrite (cut_app _ _ _ N1), (cut_app _ _ _ N2), (cut_app _ _ _ N3). apply (number_left_iff a z NA) in L.
      apply no_number_err in NA. destruct NA as (e & NA). rewrite NA, L. apply unescape_iff in D1, D2. rewrite D1, D2. eauto.
    + subst s. change (B " ") with [" "%byte]. cbn [app]. rewrite (cut_app _ _ _ N1), (cut_app _ _ _ N2), (cut_app _ _ _ N3). apply (number_left_iff b z NB) in L.
      apply no_number_err in NB. destruct NB as (e & NB). assert (P1 := proj1 (signed_int _ _) (conj S1 I1)). rewrite P1.
      assert (V1 : parse_int64_value a = n) by (unfold parse_int64_value; now rewrite P1). rewrite V1. apply unescape_iff in D1, D2. rewrite D1, D2.
      destruct TL as [->|(y & ->)].
      * rewrite app_nil_r. apply cut_none in N4. rewrite N4, NB, L. eauto.
      * rewrite (cut_app _ _ _ N4), NB, L. eauto.
    + subst s. change (B " ") with [" "%byte]. cbn [app]. rewrite (cut_app _ _ _ N1), (cut_app _ _ _ N2), (cut_app _ _ _ N3), (cut_app _ _ _ N4).
      assert (P1 := proj1 (signed_int _ _) (conj S1 I1)). assert (P2 := proj1 (signed_int _ _) (conj S2 I2)). rewrite P1, P2.
      assert (V1 : parse_int64_value a = n) by (unfold parse_int64_value; now rewrite P1). assert (V2 : parse_int64_value b = z) by (unfold parse_int64_value; now rewrite P2). rewrite V1, V2.
      apply unescape_iff in D1, D2. rewrite D1, D2. destruct y as [|c y]; [contradiction|]. destruct (bytes_eqb (c :: y) (B "ZL1")) eqn:Q; [apply bytes_eqb_true in Q; contradiction|].
      rewrite orb_false_r. eauto.
Qed.

Lemma get_left_ok old s g : get_unmarshal old s = Ok g -> get_left old s = g.
Proof.
  unfold get_unmarshal, get_left. destruct (cut " " s) as [[t s1]|]; [|discriminate]. destruct (cut " " s1) as [[p s2]|]; [|discriminate]. destruct (cut " " s2) as [[a s3]|]; [|discriminate].
  unfold parse_int64_value. destruct (parse_int64 a) as [st| |]; [|discriminate|discriminate].
  destruct (match cut " " s3 with Some (x, r) => (x, r) | None => (s3, []) end) as [b s4]. destruct (parse_int64 b) as [n| |]; [|discriminate|discriminate].
  destruct s4 as [|c s4]; [intros [= <-]; now rewrite orb_false_r|]. destruct (bytes_eqb (c :: s4) (B "ZL1")); [|discriminate]. intros [= <-]. now rewrite orb_true_r.
Qed.

(** ** Lists of fields *)
Lemma fields_loop_err sub : (exists e, fields_loop sub = Err e) <-> Exists (fun w => length w < 2) sub.
Proof.
  induction sub as [|w sub IH]; cbn [fields_loop].
  - split; [intros (e & H); discriminate|intros H; inversion H].
  - destruct w as [|a [|b w]].
    + split; [intros _; left; cbn; lia|eauto].
    + split; [intros _; left; cbn; lia|eauto].
    + split.
      * intros (e & H). right. apply IH. destruct (fields_loop sub) as [l|e'|]; [discriminate|exists e'; reflexivity|discriminate].
      * intros H. inversion H as [? ? L|? ? L]; subst; [cbn in L; lia|]. apply IH in L. destruct L as (e & L). exists e. rewrite L. reflexivity.
Qed.

(** ** Messages *)
Lemma salt_stuck s b : (exists e, gpa_unmarshal s = Err e) /\ b = gpa_left s <->
  exists d, (forall b', ~ base32_read s b') /\ groups s d /\ b = d ++ repeat x00 (length s * 5 / 8 - length d).
Proof.
  unfold gpa_unmarshal, gpa_left, b32_decode_to. rewrite strip_unbroken.
  assert (T := gpa_total (fun _ => FErr) s). unfold gpa_unmarshal, b32_decode_to in T. rewrite strip_unbroken in T.
  assert (G := groups_iff s). destruct (b32_decode [] (unbroken s)) as [d e] eqn:D. rewrite repeat_length in *. destruct (b32_decoded_len (length s) <? length d)%nat eqn:L; [congruence|].
  apply Nat.ltb_ge in L. assert (K : skipn (length d) (repeat x00 (b32_decoded_len (length s))) = repeat x00 (length s * 5 / 8 - length d)).
  { unfold b32_decoded_len in *. replace (length s * 5 / 8) with (length d + (length s * 5 / 8 - length d)) at 1 by lia. rewrite repeat_app, skipn_app, repeat_length, Nat.sub_diag.
    rewrite skipn_all2 by (rewrite repeat_length; lia). reflexivity. }
  rewrite K. destruct e as [e|].
  - split.
    + intros [_ ->]. exists d. destruct (proj1 (G d) ltac:(eauto)). auto.
    + intros (d' & N & Gr & ->). destruct (proj2 (G d') (conj N Gr)) as (e' & [= -> _]). eauto.
  - split.
    + intros [(e & H) _]. discriminate.
    + intros (d' & N & Gr & ->). destruct (proj2 (G d') (conj N Gr)) as (e' & H). discriminate.
Qed.

Lemma bind_err {A C} (r : res A) (f : A -> C) : (exists e, (do x <- r; Ok (f x)) = Err e) <-> exists e, r = Err e.
Proof. destruct r as [x|e|]; cbn [bind]; split; intros (e' & H); try discriminate; eauto. Qed.

Lemma failed_iff pf s old m : typed old ->
  ((exists e, unmarshal pf s old = Err e) /\ same_message m (unmarshal_left pf s old) <-> failed_into pf s old m).
Proof.
  intros T. split.
  - intros [H Q]. destruct old; cbn [unmarshal unmarshal_left typed] in *.
    + apply (bind_err _ (AStruct t)) in H. rewrite (same_alone _ _ Q Logic.I). apply (fi_struct pf s t (split_byte " " s)); [apply split_separated|].
      apply (stuck_iff pf (fields_of t) (split_byte " " s)); [destruct t; vm_compute; reflexivity|destruct t; vm_compute; reflexivity|now apply array_sized|].
      split; [exact H|reflexivity].
    + apply (bind_err _ (ASup)) in H. destruct m; cbn [same_message] in Q; try contradiction. apply (fi_sup pf s (split_byte " " s)); [apply split_separated|].
      apply (sup_stuck_iff pf s _ _ _ T (split_separated s)). split; [exact H|exact Q].
    + apply (bind_err _ (ASta)) in H. rewrite (same_alone _ _ Q Logic.I). destruct H as (e & H). rewrite H. constructor. intros st' R. apply status_decoded in R. congruence.
    + destruct H; discriminate.
    + destruct H; discriminate.
    + apply (bind_err _ ASid) in H. rewrite (same_alone _ _ Q Logic.I). destruct H as (e & H). rewrite H. constructor. intros L. unfold sid_unmarshal in H. apply Nat.eqb_eq in L. rewrite L in H. discriminate.
    + apply (bind_err _ (AGpa)) in H. rewrite (same_alone _ _ Q Logic.I). destruct (proj1 (salt_stuck s (gpa_left s)) (conj H eq_refl)) as (d & N & G & ->). now constructor.
    + apply (bind_err _ AGet) in H. rewrite (same_alone _ _ Q Logic.I). constructor. apply get_stuck_iff. split; [exact H|reflexivity].
    + apply (bind_err _ ASnd) in H. rewrite (same_alone _ _ Q Logic.I). constructor. apply get_stuck_iff. split; [exact H|reflexivity].
    + apply (bind_err _ (AMod)) in H. rewrite (same_alone _ _ Q Logic.I). destruct H as (e & H). rewrite H. unfold fields_unmarshal in H. destruct s as [|c s]; [discriminate|].
      apply (fi_mod pf _ _ (split_byte " " (c :: s))); [now apply parts_split|discriminate|]. apply fields_loop_err. eauto.
    + destruct H; discriminate.
  - intros H. destruct H as [t ws old v W F|ws old m W F|old N|old L|old b N G|old g F|old g F|old ws P N E]; cbn [unmarshal unmarshal_left typed] in *; rewrite ?bind_err.
    + apply (stuck_iff pf (fields_of t) ws old v) in F; [|destruct t; vm_compute; reflexivity|destruct t; vm_compute; reflexivity|now apply array_sized].
      destruct F as [E ->]. unfold unmarshal_struct. rewrite (separated_split _ _ W). split; [exact E|reflexivity].
    + apply (sup_stuck_iff pf s ws old m T W) in F. exact F.
    + assert (E : exists e, status_unmarshal s = Err e).
      { apply err_iff. split; [|apply status_total]. intros st R. apply (N st). now apply status_decoded. }
      split; [exact E|]. destruct E as (e & ->). reflexivity.
    + unfold sid_unmarshal. destruct (Nat.eqb_spec (length s) 4); [contradiction|]. split; [eauto|reflexivity].
    + destruct (proj2 (salt_stuck s (b ++ repeat x00 (length s * 5 / 8 - length b))) ltac:(eauto)) as [E <-]. split; [exact E|reflexivity].
    + apply get_stuck_iff in F. destruct F as [E ->]. split; [exact E|reflexivity].
    + apply get_stuck_iff in F. destruct F as [E ->]. split; [exact E|reflexivity].
    + apply parts_split in P. subst ws. apply fields_loop_err in E. unfold fields_unmarshal. destruct s as [|c s]; [contradiction|]. split; [exact E|]. destruct E as (e & ->). reflexivity.
Qed.

(** What is left after success is the result. *)
Lemma fields_left_ok pf fs : forall ws old v, unmarshal_fields pf fs ws old = Ok v -> fields_left pf fs ws old = v.
Proof.
  induction fs as [|f fs IH]; intros ws old v H; cbn [unmarshal_fields fields_left] in *; [now destruct v|].
  destruct (positional f).
  - destruct ws as [|w ws]; [discriminate|]. apply bind_ok in H. destruct H as (x & U & H). apply bind_ok in H. destruct H as (l & L & [= <-]).
    rewrite U, (value_left_ok pf _ _ _ _ U). f_equal. now apply IH.
  - apply bind_ok in H. destruct H as (x & U & H). apply bind_ok in H. destruct H as (l & L & [= <-]). unfold tagged_left. rewrite U. f_equal. now apply IH.
Qed.

Lemma left_ok pf s old m : unmarshal pf s old = Ok m -> unmarshal_left pf s old = m.
Proof.
  destruct old; cbn [unmarshal unmarshal_left]; intros H.
  - apply bind_ok in H. destruct H as (v' & H & E). rewrite (fields_left_ok pf _ _ _ _ H). congruence.
  - apply bind_ok in H. destruct H as (f & H & E). assert (m = ASup f) as -> by congruence. clear E. f_equal. unfold modfeatures_unmarshal, modfeatures_left in *.
    destruct (unmarshal_struct _ _ _ _) as [[add [rm u]]|e|]; [|discriminate|discriminate]. cbn [bind] in H. destruct (mod_loop false rm features) as [m1|e|]; [|discriminate|discriminate]. cbn [bind] in H.
    rewrite loop_left_changes, <- (app_nil_r (map _ add)). now rewrite (loop_ok_changes _ _ _ _ H).
  - apply bind_ok in H. destruct H as (x & H & E). rewrite H. congruence.
  - congruence.
  - congruence.
  - apply bind_ok in H. destruct H as (x & H & E). rewrite H. congruence.
  - apply bind_ok in H. destruct H as (x & H & E). assert (m = AGpa x) as -> by congruence. f_equal. unfold gpa_unmarshal, gpa_left in *. destruct (b32_decode_to _ _) as [[[y n] [e|]]|]; [discriminate|congruence|discriminate].
  - apply bind_ok in H. destruct H as (x & H & E). assert (m = AGet x) as -> by congruence. f_equal. revert H. apply get_left_ok.
  - apply bind_ok in H. destruct H as (x & H & E). assert (m = ASnd x) as -> by congruence. f_equal. revert H. apply get_left_ok.
  - apply bind_ok in H. destruct H as (x & H & E). rewrite H. congruence.
  - congruence.
Qed.
