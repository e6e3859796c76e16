(** Lemmas about ADC messages with their own text form, feature maps and Normalize. *)
From Coq Require Import Permutation.
From Verif Require Import Base BaseFacts Num NumFacts NumSpec SpecText Base32 Base32Facts Tiger SpecHash TigerFacts.
From Verif Require Import AdcText SpecAdc AdcTextFacts AdcValue AdcValueFacts AdcMessage AdcMessageFacts AdcPacket SpecAdcMessage.

(** ** Status *)

Lemma digits_acc_app x : forall a y, digits_acc a (x ++ y) = match digits_acc a x with Some v => digits_acc v y | None => None end.
Proof. induction x as [|c x IH]; intros a y; [reflexivity|]. cbn. destruct (is_digit c); [apply IH|reflexivity]. Qed.

Definition two_digits (n : N) : bytes := [digit (n / 10); digit (n mod 10)].
Lemma fmt_02d_small z : (0 <= z < 100)%Z -> fmt_02d z = two_digits (Z.to_N z).
Proof.
  intros R. assert (K : forallb (fun n => bytes_eqb (fmt_02d (Z.of_nat n)) (two_digits (N.of_nat n))) (seq 0 100) = true) by (vm_compute; reflexivity).
  rewrite forallb_forall in K. specialize (K (Z.to_nat z)). rewrite Z2Nat.id in K by lia.
  replace (Z.to_N z) with (N.of_nat (Z.to_nat z)) by lia. apply bytes_eqb_true, K. apply in_seq. lia.
Qed.

Lemma status_code sev code : (0 <= sev)%Z -> (0 <= code < 100)%Z -> int64 (100 * sev + code) ->
  signed_decimal (format_int sev ++ fmt_02d code) (100 * sev + code) /\
  parse_int64 (format_int sev ++ fmt_02d code) = Ok (100 * sev + code)%Z.
Proof.
  intros S C R. assert (D : signed_decimal (format_int sev ++ fmt_02d code) (100 * sev + code)); [|split; [exact D|]].
  2:{ apply parse_int64_spec. split; [now apply signed_decimal_iff|now apply int64_iff]. }
  rewrite fmt_02d_small by assumption. apply signed_decimal_iff. unfold format_int. destruct (Z.ltb_spec sev 0); [lia|].
  replace (100 * sev + code)%Z with (Z.of_N (100 * Z.to_N sev + Z.to_N code)) by lia. constructor.
  - pose proof (format_uint_not_nil (Z.to_N sev)). destruct (format_uint (Z.to_N sev)); [congruence|discriminate].
  - rewrite digits_acc_app, digits_format. set (n := Z.to_N code). assert (n < 100)%N by lia.
    assert (n / 10 < 10)%N by (apply N.div_lt_upper_bound; lia). assert (n mod 10 < 10)%N by (apply N.mod_lt; lia).
    cbn [two_digits digits_acc]. rewrite !is_digit_digit, !digit_val_digit by assumption. f_equal.
    pose proof (N.div_mod n 10 ltac:(lia)). lia.
Qed.

Lemma head_no_space sev code : (0 <= code < 100)%Z -> ~ In " "%byte (format_int sev ++ fmt_02d code).
Proof.
  intros C I. apply in_app_or in I. destruct I as [I|I]; [apply format_int_plain in I; tauto|].
  unfold fmt_02d in I. destruct (length (format_int code) <? 2)%nat; [destruct I as [I|I]; [discriminate|]|]; apply format_int_plain in I; tauto.
Qed.

Lemma status_text st : status_marshal st = (format_int (st_sev st) ++ fmt_02d (st_code st)) ++ " "%byte :: escape (st_msg st).
Proof. unfold status_marshal. rewrite <- app_assoc. reflexivity. Qed.

Lemma status_roundtrip st : (0 <= st_sev st)%Z -> (0 <= st_code st < 100)%Z -> int64 (100 * st_sev st + st_code st) ->
  status_unmarshal (status_marshal st) = Ok st.
Proof.
  intros S C R. unfold status_unmarshal. rewrite status_text. rewrite cut_app by now apply head_no_space.
  rewrite (proj2 (status_code _ _ S C R)). cbn [bind]. rewrite unescape_escape.
  assert (Q : Z.quot (100 * st_sev st + st_code st) 100 = st_sev st).
  { rewrite Z.quot_div_nonneg by lia. replace (100 * st_sev st + st_code st)%Z with (st_code st + st_sev st * 100)%Z by lia.
    rewrite Z.div_add by lia. rewrite Z.div_small by lia. lia. }
  assert (M : Z.rem (100 * st_sev st + st_code st) 100 = st_code st).
  { rewrite Z.rem_mod_nonneg by lia. replace (100 * st_sev st + st_code st)%Z with (st_code st + st_sev st * 100)%Z by lia.
    rewrite Z.mod_add by lia. apply Z.mod_small. lia. }
  rewrite Q, M. now destruct st.
Qed.

(** What a status text decodes to *)
Lemma status_decoded s st : status_unmarshal s = Ok st <->
  exists head tail n, s = head ++ tail /\ ~ In " "%byte head /\ signed_decimal head n /\ int64 n /\
    (tail = [] /\ st_msg st = [] \/ exists e, tail = " "%byte :: e /\ denotes_text e (st_msg st)) /\
    st_sev st = Z.quot n 100 /\ st_code st = Z.rem n 100.
Proof.
  unfold status_unmarshal. split.
  - destruct (cut " " s) as [[h r]|] eqn:C.
    + apply cut_spec in C. destruct C as [-> N]. intros H. apply bind_ok in H. destruct H as (n & P & H). injection H as <-. cbn.
      apply signed_int in P. destruct P as [P1 P2].
      exists h, (" "%byte :: r), n. repeat (split; [assumption || reflexivity|]).
      split; [right; exists r; split; [reflexivity|apply unescape_denotes]|]. split; reflexivity.
    + apply cut_none in C. intros H. apply bind_ok in H. destruct H as (n & P & H). injection H as <-. cbn.
      apply signed_int in P. destruct P as [P1 P2]. exists s, [], n. rewrite app_nil_r.
      repeat (split; [assumption || reflexivity|]). split; [left; split; reflexivity|]. split; reflexivity.
  - intros (h & t & n & -> & N & P1 & P2 & T & S & C). assert (P := proj1 (signed_int _ _) (conj P1 P2)).
    destruct T as [[-> M]|(e & -> & M)].
    + rewrite app_nil_r. rewrite (proj2 (cut_none _ _) N). rewrite P. cbn. destruct st; cbn in *; subst. reflexivity.
    + rewrite cut_app by assumption. rewrite P. cbn. apply denotes_unescape in M. destruct st; cbn in *; subst. reflexivity.
Qed.

(** ** GET and SND *)

Lemma get_roundtrip old g : int64 (g_start g) -> int64 (g_bytes g) ->
  get_unmarshal old (get_marshal g) =
  Ok {| g_type := g_type g; g_path := g_path g; g_start := g_start g; g_bytes := g_bytes g; g_comp := (g_comp g || g_comp old)%bool |}.
Proof.
  intros S N. apply int64_iff in S, N. unfold get_marshal, get_unmarshal.
  change (B " ") with [" "%byte]. change (B " ZL1") with (" "%byte :: B "ZL1"). cbn [app]. rewrite cut_app by apply escape_no_sp. rewrite cut_app by apply escape_no_sp.
  assert (F : forall z, ~ In " "%byte (format_int z)) by (intros z I; apply format_int_plain in I; tauto).
  rewrite cut_app by apply F. rewrite parse_int64_format by assumption.
  destruct (g_comp g); cbn [app orb].
  - rewrite cut_app by apply F. rewrite parse_int64_format by assumption. cbn. now rewrite !unescape_escape.
  - rewrite app_nil_r. rewrite (proj2 (cut_none _ _) (F _)). rewrite parse_int64_format by assumption. now rewrite !unescape_escape.
Qed.

(** ** Fields *)

Lemma fields_decoded l : Forall (fun f => length (fst f) = 2 /\ ~ In " "%byte (fst f)) l ->
  fields_unmarshal (fields_marshal l) = Ok (map (fun f => (fst f, escape (snd f))) l).
Proof.
  intros F. destruct l as [|f l]; [reflexivity|]. unfold fields_unmarshal, fields_marshal.
  set (ws := map _ (f :: l)).
  assert (S : split_byte " " (join (B " ") ws) = ws).
  { apply split_byte_join; [discriminate|]. intros w W. apply in_map_iff in W. destruct W as ((t & v) & <- & I).
    rewrite Forall_forall in F. destruct (F _ I) as [_ N]. intros J. apply in_app_or in J.
    destruct J as [J|J]; [exact (N J)|exact (escape_no_sp _ J)]. }
  assert (NE : join (B " ") ws <> []).
  { intros E. rewrite E in S. inversion F as [|? ? [L _] _]; subst. destruct f as [t v]. subst ws. cbn in *.
    injection S as S. destruct t; discriminate. }
  destruct (join (B " ") ws) eqn:E; [congruence|]. rewrite S. clear - F. subst ws.
  induction F as [|[t v] l' [L _] _ IH]; [reflexivity|]. destruct t as [|a [|b [|]]]; try discriminate. cbn in *. now rewrite IH.
Qed.

Lemma escape_same s : escape s = s <-> ~ In "\"%byte s /\ ~ In " "%byte s /\ ~ In x0a s.
Proof.
  split.
  - intros E. assert (K := escape_escaped s). rewrite E in K.
    assert (L : forall s e, escaped s e -> length s <= length e).
    { clear. induction 1; cbn; lia. }
    clear E. assert (G : forall s e, escaped s e -> length e <= length s -> ~ In "\"%byte s /\ ~ In " "%byte s /\ ~ In x0a s).
    { clear - L. induction 1 as [|s e E IH|s e E IH|s e E IH|c s e N1 N2 N3 E IH]; cbn [length]; intros H;
        [cbn; tauto|apply L in E; lia|apply L in E; lia|apply L in E; lia|].
      destruct (IH ltac:(lia)) as (A & B & C). cbn. intuition congruence. }
    apply (G s s K). lia.
  - intros (A & B & C). symmetry. apply escaped_escape.
    induction s as [|c s IH]; [constructor|]. cbn in A, B, C. apply es_plain; try (intros ->; tauto). apply IH; tauto.
Qed.

(** ** Feature maps *)

Lemma fm_get_in k v m : fm_get k m = Some v -> In (k, v) m.
Proof.
  induction m as [|[k' v'] m IH]; [discriminate|]. cbn. destruct (bytes_eqb k k') eqn:E.
  - intros [= ->]. apply bytes_eqb_true in E. subst. now left.
  - intros H. right. now apply IH.
Qed.
Lemma in_fm_get k v m : distinct m -> In (k, v) m -> fm_get k m = Some v.
Proof.
  induction m as [|[k' v'] m IH]; [intros _ []|]. unfold distinct. cbn. intros D. inversion D as [|? ? N D']; subst. intros [E|I].
  - injection E as -> ->. now rewrite bytes_eqb_refl.
  - destruct (bytes_eqb k k') eqn:E; [|now apply IH]. apply bytes_eqb_true in E. subst. exfalso. apply N.
    apply in_map_iff. now exists (k', v).
Qed.
Lemma fm_get_none k m : fm_get k m = None <-> forall v, ~ In (k, v) m.
Proof.
  split.
  - intros H v I. induction m as [|[k' v'] m IH]; [destruct I|]. cbn in H. destruct (bytes_eqb k k') eqn:E; [discriminate|].
    destruct I as [I|I]; [injection I as -> ->; now rewrite bytes_eqb_refl in E|now apply IH].
  - intros N. destruct (fm_get k m) as [v|] eqn:E; [|reflexivity]. apply fm_get_in in E. now apply N in E.
Qed.
Lemma entry_get k m r : distinct m -> (entry m k r <-> fm_get k m = r).
Proof.
  intros D. destruct r as [v|]; cbn; [|symmetry; apply fm_get_none]. split; [now apply in_fm_get|apply fm_get_in].
Qed.
Lemma get_perm k m m' : distinct m -> Permutation m m' -> fm_get k m' = fm_get k m.
Proof.
  intros D P. assert (D' : distinct m') by (unfold distinct; now rewrite <- (Permutation_map fst P)).
  destruct (fm_get k m) as [v|] eqn:E.
  - apply in_fm_get; [assumption|]. apply (Permutation_in _ P). now apply fm_get_in.
  - apply fm_get_none. rewrite fm_get_none in E. intros v I. apply (E v). apply (Permutation_in _ (Permutation_sym P) I).
Qed.

Lemma fm_set_get k v m k' : fm_get k' (fm_set k v m) = if bytes_eqb k' k then Some v else fm_get k' m.
Proof.
  induction m as [|[a x] m IH]; [reflexivity|]. cbn [fm_set]. destruct (bytes_eqb k a) eqn:E; cbn [fm_get].
  - apply bytes_eqb_true in E. subst a. destruct (bytes_eqb k' k); reflexivity.
  - rewrite IH. destruct (bytes_eqb k' a) eqn:E'; [|reflexivity]. apply bytes_eqb_true in E'. subst a.
    destruct (bytes_eqb k' k) eqn:F; [|reflexivity]. apply bytes_eqb_true in F. subst. now rewrite bytes_eqb_refl in E.
Qed.
Lemma fm_set_keys k v m x : In x (map fst (fm_set k v m)) <-> x = k \/ In x (map fst m).
Proof.
  induction m as [|[a y] m IH]; cbn; [intuition|]. destruct (bytes_eqb k a) eqn:E; cbn.
  - apply bytes_eqb_true in E. subst. intuition.
  - rewrite IH. intuition.
Qed.
Lemma fm_set_distinct k v m : distinct m -> distinct (fm_set k v m).
Proof.
  unfold distinct. induction m as [|[a y] m IH]; cbn; [repeat constructor; intros []|]. intros D. inversion D as [|? ? N D']; subst.
  destruct (bytes_eqb k a) eqn:E; cbn.
  - apply bytes_eqb_true in E. subst. now constructor.
  - constructor; [|now apply IH]. rewrite fm_set_keys. intros [->|I]; [now rewrite bytes_eqb_refl in E|exact (N I)].
Qed.


Lemma put_all_get it : forall m k, distinct it -> fm_get k (put_all it m) = over (fm_get k it) (fm_get k m).
Proof.
  unfold put_all. induction it as [|[a v] it IH]; intros m k D; [reflexivity|]. unfold distinct in D. cbn in D. inversion D as [|? ? N D']; subst.
  cbn [fold_left fm_get]. rewrite IH by assumption. rewrite fm_set_get. destruct (bytes_eqb k a) eqn:E; [|reflexivity].
  apply bytes_eqb_true in E. subst a. replace (fm_get k it) with (@None bool); [reflexivity|]. symmetry. apply fm_get_none.
  intros w I. apply N. apply in_map_iff. now exists (k, w).
Qed.
Lemma put_all_distinct it : forall m, distinct m -> distinct (put_all it m).
Proof. unfold put_all. induction it as [|[a v] it IH]; intros m D; [assumption|]. cbn. apply IH, fm_set_distinct, D. Qed.

Lemma nth_end {A} (h : list A) x d : nth (length h) (h ++ [x]) d = x.
Proof. rewrite app_nth2 by lia. now rewrite Nat.sub_diag. Qed.
Lemma store_end x m : forall h, store (length h) m (h ++ [x]) = h ++ [m].
Proof. induction h as [|y h IH]; [reflexivity|]. cbn. now rewrite IH. Qed.


Lemma contents_app h x f : valid h f -> contents (h ++ [x]) f = contents h f.
Proof. destruct f as [a|]; [|reflexivity]. cbn. intros L. now apply app_nth1. Qed.

Lemma set_from_spec it it' h f fp h' r : distinct it -> distinct it' -> Permutation it (contents h f) -> Permutation it' (contents h fp) ->
  set_from it it' h f fp = (h', r) ->
  (forall g, valid h g -> contents h' g = contents h g) /\ valid h' r /\ distinct (contents h' r) /\
  (forall k, fm_get k (contents h' r) = over (fm_get k (contents h fp)) (fm_get k (contents h f))).
Proof.
  intros D D' P P' H. unfold set_from in H.
  assert (N : f = None /\ fp = None \/ (match f, fp with None, None => False | _, _ => True end)) by (destruct f, fp; tauto).
  destruct N as [[-> ->]|N].
  { injection H as <- <-. cbn. repeat split; auto. constructor. }
  assert (E : (h', r) = (h ++ [put_all it' (put_all it [])], Some (length h))).
  { rewrite <- H. destruct f, fp; try tauto; unfold clone; rewrite nth_end, store_end; reflexivity. }
  injection E as -> ->. split; [intros g V; now apply contents_app|]. split; [cbn; rewrite app_length; cbn; lia|].
  cbn [contents]. rewrite nth_end. split; [apply put_all_distinct, put_all_distinct; constructor|].
  intros k. rewrite !put_all_get by assumption. rewrite (get_perm k it (contents h f)), (get_perm k it' (contents h fp)) by assumption.
  cbn. now destruct (fm_get k it), (fm_get k it').
Qed.

Lemma common_get fp it : forall k, distinct it -> fm_get k (common it fp) = both (fm_get k it) (fm_get k fp).
Proof.
  unfold common. intros k D.
  assert (G : forall m, fm_get k (fold_left (fun fi '(k0, add) => if add : bool then match fm_get k0 fp with Some true => fm_set k0 true fi | _ => fi end else fi) it m)
     = over (both (fm_get k it) (fm_get k fp)) (fm_get k m)).
  { induction it as [|[a v] it IH]; intros m; [reflexivity|]. unfold distinct in D. cbn in D. inversion D as [|? ? N D']; subst.
    cbn [fold_left fm_get]. rewrite IH by assumption. destruct (bytes_eqb k a) eqn:E.
    - apply bytes_eqb_true in E. subst a. replace (fm_get k it) with (@None bool).
      2:{ symmetry. apply fm_get_none. intros w I. apply N. apply in_map_iff. now exists (k, w). }
      destruct v; [|reflexivity]. cbn [both over]. destruct (fm_get k fp) as [[|]|] eqn:F; try reflexivity.
      rewrite fm_set_get, bytes_eqb_refl. reflexivity.
    - destruct v; [|reflexivity]. destruct (fm_get a fp) as [[|]|]; try reflexivity. rewrite fm_set_get, E. reflexivity. }
  rewrite G. cbn. now destruct (both _ _).
Qed.
Lemma common_distinct fp it : distinct (common it fp).
Proof.
  unfold common. assert (G : forall m, distinct m -> distinct (fold_left (fun fi '(k0, add) => if add : bool then match fm_get k0 fp with Some true => fm_set k0 true fi | _ => fi end else fi) it m)).
  { induction it as [|[a v] it IH]; intros m D; [assumption|]. cbn. apply IH. destruct v; [|assumption].
    destruct (fm_get a fp) as [[|]|]; try assumption. now apply fm_set_distinct. }
  apply G. constructor.
Qed.

Lemma intersect_spec it h f fp h' r : distinct it -> Permutation it (contents h f) -> intersect it h f fp = (h', r) ->
  (forall g, valid h g -> contents h' g = contents h g) /\ valid h' r /\ distinct (contents h' r) /\
  (forall k, fm_get k (contents h' r) = both (fm_get k (contents h f)) (fm_get k (contents h fp))).
Proof.
  intros D P H. unfold intersect in H.
  assert (N : r = None /\ h' = h /\ (f = None \/ fp = None) \/ (h', r) = (h ++ [common it (contents h fp)], Some (length h))).
  { destruct f, fp; try (left; injection H as <- <-; now auto). right. congruence. }
  destruct N as [(-> & -> & N)|E].
  - split; [auto|]. split; [exact Logic.I|]. split; [constructor|]. intros k. cbn. destruct N as [-> | ->]; cbn; [reflexivity|].
    now destruct (fm_get k (contents h f)) as [[|]|].
  - injection E as -> ->. split; [intros g V; now apply contents_app|]. split; [cbn; rewrite app_length; cbn; lia|].
    cbn [contents]. rewrite nth_end. split; [apply common_distinct|]. intros k. rewrite common_get by assumption.
    rewrite (get_perm k it (contents h f)) by assumption. reflexivity.
Qed.

(** Decoding feature lists *)
Lemma mod_loop_ok v l : forall m, Forall (fun f => length f = 4) l ->
  exists m', mod_loop v l m = Ok m' /\ (distinct m -> distinct m') /\
    forall k, fm_get k m' = if existsb (bytes_eqb k) l then Some v else fm_get k m.
Proof.
  induction l as [|f l IH]; intros m F; [now exists m|]. inversion F as [|? ? L F']; subst.
  cbn [mod_loop existsb]. unfold feature_unmarshal. rewrite L. cbn [Nat.eqb bind].
  destruct (IH (fm_set f v m) F') as (m' & E & D & G). exists m'. split; [exact E|]. split; [intros H; apply D, fm_set_distinct, H|].
  intros k. rewrite G, fm_set_get. destruct (bytes_eqb k f), (existsb (bytes_eqb k) l); reflexivity.
Qed.
Lemma mod_loop_err v l : forall m m', mod_loop v l m = Ok m' -> Forall (fun f => length f = 4) l.
Proof.
  induction l as [|f l IH]; intros m m' H; [constructor|]. cbn in H. unfold feature_unmarshal in H.
  destruct (length f =? 4)%nat eqn:E; [|discriminate]. apply Nat.eqb_eq in E. cbn in H. constructor; [assumption|]. now apply IH in H.
Qed.

Lemma mod_fields_decoded pf s ws : separated s ws ->
  unmarshal_struct pf mod_fields s (zeros mod_fields) = Ok (map unescape (values (B "AD") ws), (map unescape (values (B "RM") ws), tt)).
Proof.
  intros W. unfold unmarshal_struct. rewrite (separated_split _ _ W). unfold mod_fields. cbn [unmarshal_fields fld positional f_tag].
  change (bytes_eqb (B "AD") (B "#")) with false. change (bytes_eqb (B "RM") (B "#")) with false. cbn iota.
  rewrite !values_tagged by reflexivity.
  assert (T : forall l, unmarshal_tagged pf KStrs l [] = Ok (map unescape l)) by (intros [|x l]; reflexivity).
  cbn [f_kind zeros fst snd zero]. rewrite !T. reflexivity.
Qed.

Lemma modfeatures_decoded pf s ws m m' : separated s ws -> modfeatures_unmarshal pf s m = Ok m' <->
  let add := map unescape (values (B "AD") ws) in let rm := map unescape (values (B "RM") ws) in
  Forall (fun f => length f = 4) (add ++ rm) /\ (do m1 <- mod_loop false rm m; mod_loop true add m1) = Ok m'.
Proof.
  intros W. unfold modfeatures_unmarshal. rewrite (mod_fields_decoded pf s ws W). cbn [bind]. split; [|tauto].
  intros H. split; [|exact H]. apply bind_ok in H. destruct H as (m1 & M & H). apply Forall_app. split; eapply mod_loop_err; eassumption.
Qed.

Lemma modfeatures_entries pf s ws m : separated s ws ->
  let add := map unescape (values (B "AD") ws) in let rm := map unescape (values (B "RM") ws) in
  Forall (fun f => length f = 4) (add ++ rm) ->
  exists m', modfeatures_unmarshal pf s m = Ok m' /\ (distinct m -> distinct m') /\
    forall k, fm_get k m' = if existsb (bytes_eqb k) add then Some true else if existsb (bytes_eqb k) rm then Some false else fm_get k m.
Proof.
  intros W add rm F. apply Forall_app in F. destruct F as [F1 F2].
  destruct (mod_loop_ok false rm m F2) as (m1 & E1 & D1 & G1). destruct (mod_loop_ok true add m1 F1) as (m2 & E2 & D2 & G2).
  exists m2. unfold modfeatures_unmarshal. rewrite (mod_fields_decoded pf s ws W). cbn [bind].
  change (map unescape (values (B "AD") ws)) with add. change (map unescape (values (B "RM") ws)) with rm.
  rewrite E1. cbn [bind]. split; [exact E2|]. split; [auto|]. intros k. now rewrite G2, G1.
Qed.


Lemma unescape_same s : ~ In "\"%byte s -> unescape s = s.
Proof.
  intros N. symmetry. apply denotes_unescape. induction s as [|c s IH]; [constructor|]. cbn in N. apply dt_plain; [intros ->; tauto|]. apply IH. tauto.
Qed.

Lemma mod_words (it : fmap) : let ws := map (fun '(f, st) => B (if st : bool then "AD" else "RM") ++ f) it in
  values (B "AD") ws = map fst (filter snd it) /\ values (B "RM") ws = map fst (filter (fun x => negb (snd x)) it).
Proof.
  cbn zeta. induction it as [|[f st] it [IH1 IH2]]; [split; reflexivity|]. cbn [map].
  assert (V : forall t w l, values t (w :: l) = (if bytes_eqb (firstn 2 w) t then [skipn 2 w] else []) ++ values t l) by reflexivity.
  rewrite !V, IH1, IH2. destruct st; cbn [filter snd negb map fst]; split; reflexivity.
Qed.

Lemma modfeatures_roundtrip pf it : distinct it -> Forall (fun e => plain_feature (fst e)) it ->
  exists m, modfeatures_unmarshal pf (modfeatures_marshal it) [] = Ok m /\ distinct m /\ forall k, fm_get k m = fm_get k it.
Proof.
  intros D F. destruct it as [|e it'].
  { exists []. split; [reflexivity|]. split; [constructor|reflexivity]. }
  set (it := e :: it') in *. set (ws := map (fun '(f, st) => B (if st : bool then "AD" else "RM") ++ f) it).
  assert (W : separated (modfeatures_marshal it) ws).
  { split; [discriminate|]. split; [|reflexivity]. apply Forall_forall. intros w I. apply in_map_iff in I. destruct I as ([f st] & <- & I).
    rewrite Forall_forall in F. destruct (F _ I) as (_ & N & _). cbn [fst] in N. destruct st; cbn; intuition discriminate. }
  destruct (mod_words it) as [A R]. fold ws in A, R.
  assert (U : forall l, (forall x, In x l -> In x it) -> map unescape (map fst l) = map fst l).
  { intros l I. rewrite <- (map_id (map fst l)) at 2. apply map_ext_in. intros f Hf. apply unescape_same.
    apply in_map_iff in Hf. destruct Hf as (x & <- & X). rewrite Forall_forall in F. now destruct (F x (I x X)) as (_ & _ & N). }
  assert (I1 : forall x, In x (filter snd it) -> In x it) by (intros x X; now apply filter_In in X).
  assert (I2 : forall x, In x (filter (fun x => negb (snd x)) it) -> In x it) by (intros x X; now apply filter_In in X).
  destruct (modfeatures_entries pf _ ws [] W) as (m & E & Dm & G).
  { rewrite A, R, (U _ I1), (U _ I2). apply Forall_forall. intros f I. rewrite Forall_forall in F.
    rewrite <- map_app in I. apply in_map_iff in I. destruct I as (x & <- & X). apply in_app_or in X.
    assert (J : In x it) by (destruct X; auto). now destruct (F x J). }
  exists m. split; [exact E|]. split; [apply Dm; constructor|]. intros k. rewrite G, A, R, (U _ I1), (U _ I2).
  assert (X : forall v (l : fmap), existsb (bytes_eqb k) (map fst (filter (fun x => Bool.eqb (snd x) v) l)) = true <-> In (k, v) l).
  { intros v l. rewrite existsb_exists. split.
    - intros (x & I & Q). apply bytes_eqb_true in Q. subst x. apply in_map_iff in I. destruct I as ([a b] & Q & I). cbn in Q. subst a.
      apply filter_In in I. destruct I as [I J]. apply eqb_prop in J. cbn in J. now subst b.
    - intros I. exists k. split; [|apply bytes_eqb_refl]. apply in_map_iff. exists (k, v). split; [reflexivity|]. apply filter_In. split; [assumption|apply eqb_reflx]. }
  assert (Y1 : filter snd it = filter (fun x : bytes * bool => Bool.eqb (snd x) true) it) by (apply filter_ext; intros [a []]; reflexivity).
  assert (Y2 : filter (fun x => negb (snd x)) it = filter (fun x : bytes * bool => Bool.eqb (snd x) false) it) by (apply filter_ext; intros [a []]; reflexivity).
  rewrite Y1, Y2. destruct (existsb _ (map fst (filter (fun x => Bool.eqb (snd x) true) it))) eqn:Z1.
  - apply X in Z1. symmetry. now apply in_fm_get.
  - destruct (existsb _ (map fst (filter (fun x => Bool.eqb (snd x) false) it))) eqn:Z2.
    + apply X in Z2. symmetry. now apply in_fm_get.
    + symmetry. apply fm_get_none. intros [|] I; apply X in I; congruence.
Qed.

(** ** GetPassword and SIDAssign *)

Lemma gpa_roundtrip salt : gpa_unmarshal (gpa_marshal salt) = Ok salt.
Proof.
  unfold gpa_unmarshal, gpa_marshal. rewrite encode_values. unfold b32_decode_to. rewrite strip_symbols by apply enc_values_small.
  rewrite decode_symbols by apply enc_values_small. rewrite packs_enc, repeat_length, map_length, enc_values_length.
  assert (E : b32_decoded_len (b32_encoded_len (length salt)) = length salt).
  { unfold b32_decoded_len, b32_encoded_len. set (n := length salt). pose proof (Nat.div_mod (n * 8 + 4) 5 ltac:(lia)).
    pose proof (Nat.mod_upper_bound (n * 8 + 4) 5 ltac:(lia)). set (q := (n * 8 + 4) / 5) in *. symmetry. apply (Nat.div_unique _ _ _ (q * 5 - 8 * n)); lia. }
  rewrite E, Nat.ltb_irrefl. rewrite skipn_all2 by now rewrite repeat_length. now rewrite app_nil_r.
Qed.

(** ** Normalize *)

Lemma normalize_spec u : let app := get_str "Application" inf_fields in let ver := get_str "Version" inf_fields in
  same_except ["Application"; "Version"]%string inf_fields u (normalize u) /\
  (app u <> [] \/ ~ In " "%byte (ver u) -> normalize u = u) /\
  (forall a v, app u = [] -> ver u = a ++ " "%byte :: v -> ~ In " "%byte v -> app (normalize u) = a /\ ver (normalize u) = v).
Proof.
  cbn zeta. assert (R : forall ns fs (v : vals fs), same_except ns fs v v) by (intros ns fs; induction fs; cbn; auto).
  unfold normalize at 1 2. destruct (get_str "Application" inf_fields u) eqn:A.
  2:{ split; [apply R|]. split; [reflexivity|discriminate]. }
  destruct (last_cut " " (get_str "Version" inf_fields u)) as [[a v]|] eqn:C.
  - split; [|split].
    + repeat split; solve [right; reflexivity | left; cbn; auto].
    + apply last_cut_spec in C. destruct C as [E N]. intros [H|H]; [congruence|]. exfalso. apply H. rewrite E. apply in_or_app. right. now left.
    + intros a' v' _ E N. unfold normalize. rewrite A. rewrite E. rewrite last_cut_app by assumption. split; reflexivity.
  - split; [apply R|]. split; [reflexivity|]. apply last_cut_none in C. intros a v _ E _. exfalso. apply C. rewrite E. apply in_or_app. right. now left.
Qed.

Lemma normalize_idempotent u : normalize (normalize u) = normalize u.
Proof.
  destruct (normalize_spec u) as (_ & K & C). destruct (normalize_spec (normalize u)) as (_ & K' & _). cbn zeta in *.
  destruct (get_str "Application" inf_fields u) eqn:A.
  2:{ rewrite K by (left; discriminate). apply K. left; discriminate. }
  destruct (last_cut " " (get_str "Version" inf_fields u)) as [[a v]|] eqn:E.
  - apply last_cut_spec in E. destruct E as [E N]. apply K'. right. destruct (C a v eq_refl E N) as [_ ->]. exact N.
  - apply last_cut_none in E. rewrite (K (or_intror E)). apply K. now right.
Qed.
