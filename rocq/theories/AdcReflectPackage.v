(** The messages of the package as structures of a program. *)
From Verif Require Import Base BaseFacts Num NumFacts Tiger AdcText AdcTextFacts AdcValue AdcMessage AdcLeft AdcReuse AdcReflect.
From Verif Require Import SpecText SpecAdc SpecReflect AdcReflectFacts.
From Coq Require Import Lia ZArith.

Section Package.
Variable pf : bool -> bytes -> float_result.
Hypothesis pf_int : forall x z, pf false x = FInt z -> int64 z.
Notation pf64 := (pf false).
Notation PM := package_methods.

Lemma wrap64 z : int64 z -> wrap Bits64 z = z.
Proof. intros I. symmetry. apply kept_wrap. split; [exact I|exists 0%Z; lia]. Qed.

Lemma package_zero k : g_zero (kind_type k) = kind_val k (zero k).
Proof. now destruct k. Qed.

Lemma slice_items f l : (forall x, data_of (f x) = x) -> items_of (slice_of f l) = l.
Proof.
  intros H. destruct l as [|x l]; [reflexivity|]. cbn [slice_of items_of]. rewrite map_map. rewrite <- (map_id (x :: l)) at 2.
  apply map_ext. exact H.
Qed.

(** Pointers lead to identifiers and hashes only. *)
Definition known_kind (k : kind) : bool := match k with KPtr (KSid | KCid | KTth) => true | KPtr _ => false | _ => true end.

Lemma value_agrees k s old : known_kind k = true ->
  match unmarshal_value pf64 k s old with
  | Ok v => g_decode PM pf (kind_type k) s (kind_val k old) = (kind_val k v, MDone)
  | Err e => g_decode PM pf (kind_type k) s (kind_val k old) = (kind_val k (value_left pf64 k s old), MFail e)
  | Panic => snd (g_decode PM pf (kind_type k) s (kind_val k old)) = MPanic
  end.
Proof.
  intros K. destruct k; cbn [unmarshal_value kind_type kind_val val] in *.
  - cbn. destruct s; reflexivity.
  - unfold value_left. cbn [unmarshal_value g_decode methods_of package_methods no_methods gm_decode].
    destruct s as [|c s]; [reflexivity|]. unfold unmarshal_int, parse_int. cbn [short_int andb].
    destruct (parse_int64 (c :: s)) as [z|e|] eqn:E.
    + apply parse_int64_spec in E. destruct E as [_ I]. rewrite wrap64; [reflexivity|]. exact I.
    + destruct (pf false (c :: s)) as [| |z] eqn:F; try reflexivity. rewrite wrap64; [reflexivity|]. now apply (pf_int _ _ F).
    + reflexivity.
  - unfold value_left. cbn. destruct s as [|c [|d s]]; reflexivity.
  - unfold value_left. cbn [unmarshal_value]. cbn. destruct (sid_unmarshal s); reflexivity.
  - unfold value_left. cbn [unmarshal_value]. cbn. unfold cid_from_base32. destruct (hash_from_base32 _ s) as [[[]|e|] h]; reflexivity.
  - unfold value_left. cbn [unmarshal_value]. cbn. destruct (hash_unmarshal_base32 old s) as [[[]|e|] h]; reflexivity.
  - unfold value_left. cbn [unmarshal_value]. cbn [g_decode methods_of package_methods gm_decode]. rewrite slice_items by reflexivity.
    destruct (features_unmarshal old s); reflexivity.
  - cbn [g_decode methods_of package_methods gm_decode]. now rewrite slice_items by reflexivity.
  - unfold value_left. cbn. destruct s; reflexivity.
  - destruct s as [|c s].
    + cbn. now destruct k.
    + destruct k; try discriminate; cbn [unmarshal_value zero bind value_left]; unfold value_left; cbn [unmarshal_value zero bind].
      * cbn. destruct (sid_unmarshal (c :: s)); reflexivity.
      * cbn [kind_type g_decode methods_of package_methods gm_decode no_methods g_zero data_of]. destruct (cid_from_base32 _ (c :: s)) as [[[]|e|] h]; reflexivity.
      * cbn [kind_type g_decode methods_of package_methods gm_decode no_methods g_zero data_of]. destruct (hash_unmarshal_base32 _ (c :: s)) as [[[]|e|] h]; reflexivity.
Qed.

Lemma elements_strings xs : g_elements PM pf (GString 0) xs = (map VStr (map unescape xs), MDone).
Proof.
  induction xs as [|x xs IH]; [reflexivity|]. cbn [g_elements map].
  assert (E : g_decode PM pf (GString 0) x (g_zero (GString 0)) = (VStr (unescape x), MDone)) by (destruct x; reflexivity).
  now rewrite E, IH.
Qed.

Lemma named_agrees k xs old : known_kind k = true ->
  match unmarshal_tagged pf64 k xs old with
  | Ok v => g_named PM pf (kind_type k) xs (kind_val k old) = (kind_val k v, MDone)
  | Err e => g_named PM pf (kind_type k) xs (kind_val k old) = (kind_val k (tagged_left pf64 k xs old), MFail e)
  | Panic => snd (g_named PM pf (kind_type k) xs (kind_val k old)) = MPanic
  end.
Proof.
  intros K. destruct xs as [|x more]; [reflexivity|]. unfold tagged_left. unfold unmarshal_tagged.
  destruct (unmarshaler k) eqn:U.
  - pose proof (value_agrees k x old K) as V.
    assert (G : g_named PM pf (kind_type k) (x :: more) (kind_val k old) = g_decode PM pf (kind_type k) x (kind_val k old)).
    { destruct k; try discriminate; reflexivity. }
    rewrite G. destruct (unmarshal_value pf64 k x old); exact V.
  - destruct k; try discriminate.
    + destruct more as [|y more]; [|reflexivity]. pose proof (value_agrees _ x old K) as V. unfold value_left in V. destruct (unmarshal_value pf64 _ x old); exact V.
    + destruct more as [|y more]; [|reflexivity]. pose proof (value_agrees _ x old K) as V. unfold value_left in V. destruct (unmarshal_value pf64 _ x old); exact V.
    + destruct more as [|y more]; [|reflexivity]. pose proof (value_agrees _ x old K) as V. unfold value_left in V. destruct (unmarshal_value pf64 _ x old); exact V.
    + cbn [kind_type kind_val g_named methods_of package_methods gm_decode no_methods]. now rewrite elements_strings.
    + destruct more as [|y more]; [|reflexivity]. pose proof (value_agrees _ x old K) as V. unfold value_left in V. destruct (unmarshal_value pf64 _ x old); exact V.
Qed.

(** The tag of a field, and where it may stand *)
Definition known_field (f : field) : bool :=
  (known_kind (f_kind f) && negb (existsb (beq ",") (f_tag f)) && negb (tag_skips (f_tag f)) &&
   match f_kind f with KPtr _ => negb (positional f) && negb (f_req f) | KStrs => negb (positional f) | _ => true end)%bool.

Lemma package_tag f : known_field f = true -> tag_name (gf_tag (package_field f)) = f_tag f /\ tag_req (gf_tag (package_field f)) = f_req f /\
  tag_skips (f_tag f) = false /\ tag_skips (gf_tag (package_field f)) = false /\ known_kind (f_kind f) = true.
Proof.
  unfold known_field. intros H. apply andb_prop in H as [H _]. apply andb_prop in H as [H S]. apply andb_prop in H as [K H].
  apply Bool.negb_true_iff in S, H.
  assert (N : ~ In ","%byte (f_tag f)).
  { intros I. assert (existsb (beq ",") (f_tag f) = true) by (apply existsb_exists; exists ","%byte; split; [assumption|reflexivity]). congruence. }
  unfold tag_name, tag_req, package_field. cbn [gf_tag]. destruct (f_req f).
  - change (B ",req") with (","%byte :: B "req"). rewrite (cut_app _ _ _ N). repeat split; try assumption.
    apply Bool.not_true_iff_false. rewrite skips_iff. intros [E|E].
    + destruct (f_tag f); discriminate.
    + assert (I : In ","%byte (B "-")) by (rewrite <- E; apply in_or_app; right; now left). destruct I as [I|[]]. discriminate.
  - rewrite app_nil_r, (proj2 (cut_none _ _) N). repeat split; assumption.
Qed.

Lemma fields_agree fs : forallb known_field fs = true -> forall sub old,
  match unmarshal_fields pf64 fs sub old with
  | Ok v => g_fields PM pf (map package_field fs) sub (package_vals fs old) = (package_vals fs v, EndDone)
  | Err e => exists n, g_fields PM pf (map package_field fs) sub (package_vals fs old) = (package_vals fs (fields_left pf64 fs sub old), EndField n e)
  | Panic => snd (g_fields PM pf (map package_field fs) sub (package_vals fs old)) = EndPanic
  end.
Proof.
  induction fs as [|f fs IH]; intros H sub old; [reflexivity|]. cbn [forallb] in H. apply andb_prop in H as [Kf H]. specialize (IH H).
  destruct (package_tag f Kf) as (T & _ & S & _ & K). cbn [map package_vals g_fields unmarshal_fields fields_left]. rewrite T, S.
  change (tag_hash (f_tag f)) with (positional f). destruct (positional f).
  - destruct sub as [|w sub]; [reflexivity|]. cbn [gf_exported package_field gf_type].
    pose proof (value_agrees _ w (fst old) K) as V. destruct (unmarshal_value pf64 (f_kind f) w (fst old)) as [x|e|] eqn:E; cbn [bind].
    + rewrite V. specialize (IH sub (snd old)). destruct (unmarshal_fields pf64 fs sub (snd old)) as [l|e|]; cbn [bind].
      * now rewrite IH.
      * destruct IH as [n IH]. exists n. rewrite IH. unfold value_left. now rewrite E.
      * destruct (g_fields PM pf (map package_field fs) sub (package_vals fs (snd old))). exact IH.
    + rewrite V. now exists (B (f_name f)).
    + destruct (g_decode PM pf (kind_type (f_kind f)) w (kind_val (f_kind f) (fst old))) as [v r]. cbn in V. subst r. reflexivity.
  - pose proof (named_agrees _ (tagged (f_tag f) sub) (fst old) K) as V.
    destruct (tagged (f_tag f) sub) as [|w more] eqn:TT.
    + unfold unmarshal_tagged. cbn [bind]. specialize (IH sub (snd old)). destruct (unmarshal_fields pf64 fs sub (snd old)) as [l|e|]; cbn [bind].
      * now rewrite IH.
      * destruct IH as [n IH]. exists n. rewrite IH. reflexivity.
      * destruct (g_fields PM pf (map package_field fs) sub (package_vals fs (snd old))). exact IH.
    + cbn [gf_exported package_field gf_type].
      destruct (unmarshal_tagged pf64 (f_kind f) (w :: more) (fst old)) as [x|e|] eqn:E; cbn [bind].
      * rewrite V. specialize (IH sub (snd old)). destruct (unmarshal_fields pf64 fs sub (snd old)) as [l|e|]; cbn [bind].
        -- now rewrite IH.
        -- destruct IH as [n IH]. exists n. rewrite IH. unfold tagged_left. now rewrite E.
        -- destruct (g_fields PM pf (map package_field fs) sub (package_vals fs (snd old))). exact IH.
      * rewrite V. now exists (B (f_name f)).
      * destruct (g_named PM pf (kind_type (f_kind f)) (w :: more) (kind_val (f_kind f) (fst old))) as [v r]. cbn in V. subst r. reflexivity.
Qed.

Lemma known_fields t : forallb known_field (fields_of t) = true.
Proof. now destruct t. Qed.

Lemma is_zero_agrees k v : known_kind k = true -> g_is_zero (kind_type k) (kind_val k v) = Ok (is_zero k v).
Proof.
  destruct k; intros K; cbn; try reflexivity; try (now destruct v).
Qed.

Lemma encode_agrees k v buf : known_kind k = true -> match k with KStrs | KPtr _ => False | _ => True end ->
  g_encode PM (kind_type k) (kind_val k v) buf = (buf ++ marshal_value k v, MDone).
Proof.
  intros K N. destruct k; try contradiction; try reflexivity.
  - unfold kind_val, kind_type. cbn [g_encode g_method methods_of package_methods gm_value]. now rewrite slice_items by reflexivity.
  - unfold kind_val, kind_type. cbn [g_encode g_method methods_of package_methods gm_value]. now rewrite slice_items by reflexivity.
Qed.

Lemma write_all_agrees f l : forall buf first, g_encode_all PM (f_tag f) (GString 0) (map VStr l) buf first =
  (fst (fold_left (fun s x => write_value f (escape x) s) l (buf, first)), snd (fold_left (fun s x => write_value f (escape x) s) l (buf, first)), MDone).
Proof.
  induction l as [|x l IH]; intros buf first; [reflexivity|]. cbn [map g_encode_all fold_left]. cbn [g_encode g_method methods_of package_methods no_methods gm_value].
  rewrite IH. reflexivity.
Qed.

Lemma field_agrees f v buf first : known_field f = true ->
  g_marshal_field PM (package_field f) (kind_val (f_kind f) v) buf first =
    (fst (marshal_field f v (buf, first)), snd (marshal_field f v (buf, first)), MDone).
Proof.
  intros Kf. destruct (package_tag f Kf) as (T & R & S & _ & K). unfold g_marshal_field, marshal_field. rewrite T, R.
  cbn [gf_exported package_field gf_type negb]. rewrite Bool.andb_false_r. change (tag_hash (f_tag f)) with (positional f).
  rewrite is_zero_agrees by assumption.
  assert (P : match f_kind f with KPtr _ => negb (positional f) && negb (f_req f) | KStrs => negb (positional f) | _ => true end = true)
    by (unfold known_field in Kf; now apply andb_prop in Kf).
  assert (Z : (if (negb (positional f) && negb (f_req f))%bool then Ok (is_zero (f_kind f) v) else Ok false) =
              Ok (negb (positional f) && negb (f_req f) && is_zero (f_kind f) v)%bool) by now destruct (negb (positional f) && negb (f_req f))%bool.
  rewrite Z. destruct (negb (positional f) && negb (f_req f) && is_zero (f_kind f) v)%bool eqn:O; [reflexivity|].
  assert (W : forall k (x : val k), known_kind k = true -> match k with KStrs | KPtr _ => False | _ => True end ->
    (let '(b, r) := g_encode PM (kind_type k) (kind_val k x) (g_write_tag (f_tag f) buf first) in (b, false, r)) =
    (fst (write_value f (marshal_value k x) (buf, first)), snd (write_value f (marshal_value k x) (buf, first)), MDone)).
  { intros k x Kk N. rewrite encode_agrees by assumption. unfold write_value, write_tag, g_write_tag, positional, tag_hash. cbn [fst snd].
    now rewrite <- !app_assoc. }
  revert v O Z. destruct (f_kind f) as [| | | | | | | | |k] eqn:E; intros v O Z.
  1-3: apply (W _ v); [reflexivity|exact Logic.I].
  1-3: exact (W _ v eq_refl Logic.I).
  - exact (W KFeas v eq_refl Logic.I).
  - exact (W KPath v eq_refl Logic.I).
  - cbn [kind_type kind_val g_method methods_of package_methods no_methods gm_value].
    apply Bool.negb_true_iff in P. rewrite P in *. destruct v as [|x v].
    + cbn. reflexivity.
    + cbn [slice_of]. apply write_all_agrees.
  - rewrite P in O. cbn in O. destruct v as [v|]; [|discriminate].
    destruct k; try discriminate; exact (W _ v eq_refl Logic.I).
Qed.

Lemma marshal_agrees fs : forallb known_field fs = true -> forall v buf first,
  g_marshal_fields PM (map package_field fs) (package_vals fs v) buf first = (fst (marshal_fields fs v (buf, first)), EndDone).
Proof.
  induction fs as [|f fs IH]; intros H v buf first; [reflexivity|]. cbn [forallb] in H. apply andb_prop in H as [Kf H].
  destruct (package_tag f Kf) as (_ & _ & _ & S & _). cbn [map package_vals g_marshal_fields marshal_fields]. rewrite S, field_agrees by assumption.
  rewrite IH by assumption. now rewrite <- surjective_pairing.
Qed.
End Package.

(** ** Marshal appends *)

Section Append.
Variable M : nat -> gmethods.
Hypothesis A : appending_methods M.

Lemma method_appends t v m : g_method M t v = Some m -> exists x r, forall buf, m buf = (buf ++ x, r).
Proof.
  destruct A as [AV AP]. assert (G : forall t', match gm_value (methods_of M t') with Some f => Some (f v) | None => None end = Some m -> exists x r, forall buf, m buf = (buf ++ x, r)).
  { intros t'. destruct (gm_value (methods_of M t')) as [f|] eqn:F; [|discriminate]. intros [= <-].
    destruct t'; cbn in F; try discriminate; now apply (AV _ _ _ F). }
  unfold g_method. destruct t as [n|n|n w|n w|n c z|n t|t]; try apply G. destruct v; try (apply G).
  destruct (gm_value (methods_of M t)) as [f|] eqn:F.
  - intros [= <-]. destruct p as [x|].
    + destruct t; cbn in F; try discriminate; now apply (AV _ _ _ F).
    + exists [], MPanic. intros buf. now rewrite app_nil_r.
  - destruct (gm_pointer (methods_of M t)) as [f|] eqn:P; [|discriminate]. intros [= <-].
    destruct t; cbn in P; try discriminate; now apply (AP _ _ _ P).
Qed.
Lemma encode_appends t : forall v, exists x r, forall buf, g_encode M t v buf = (buf ++ x, r).
Proof.
  assert (E : forall r : mend, exists x e, forall buf : bytes, (buf, r) = (buf ++ x, e)) by (intros r; exists [], r; intros; now rewrite app_nil_r).
  induction t as [n|n|n w|n w|n c z|n t IH|t IH]; intros v; cbn [g_encode];
    (match goal with |- context [g_method M ?t v] => destruct (g_method M t v) as [m|] eqn:D end; [now apply method_appends in D|]);
    destruct v as [s|b|y|y|d|l|p]; try destruct w; try apply E; try (eexists; eexists; intros; reflexivity).
  destruct p as [x|]; [apply IH|apply E].
Qed.
Lemma encode_all_appends n t l : forall first, exists x f r, forall buf, g_encode_all M n t l buf first = (buf ++ x, f, r).
Proof.
  induction l as [|v l IH]; intros first; cbn [g_encode_all].
  - exists [], first, MDone. intros. now rewrite app_nil_r.
  - destruct (encode_appends t v) as (x & r & E). destruct r.
    + destruct (IH false) as (y & f & r & F). exists (lead n first ++ x ++ y), f, r. intros buf. rewrite write_lead, E, F. now rewrite <- !app_assoc.
    + exists (lead n first ++ x), false, (MFail e). intros buf. now rewrite write_lead, E, <- app_assoc.
    + exists (lead n first ++ x), false, MPanic. intros buf. now rewrite write_lead, E, <- app_assoc.
Qed.
Lemma field_appends f v first : exists x b r, forall buf, g_marshal_field M f v buf first = (buf ++ x, b, r).
Proof.
  assert (E : forall r : mend, exists x b e, forall buf : bytes, (buf, first, r) = (buf ++ x, b, e)) by (intros r; exists [], first, r; intros; now rewrite app_nil_r).
  unfold g_marshal_field. destruct (_ && _ && negb (gf_exported f))%bool; [apply E|].
  destruct (if (_ && _)%bool then g_is_zero (gf_type f) v else Ok false) as [[|]|e|]; try apply E. destruct (gf_exported f); [|apply E].
  assert (G : exists x b r, forall buf, (let '(buf', r) := g_encode M (gf_type f) v (g_write_tag (tag_name (gf_tag f)) buf first) in (buf', false, r)) = (buf ++ x, b, r)).
  { destruct (encode_appends (gf_type f) v) as (x & r & W). exists (lead (tag_name (gf_tag f)) first ++ x), false, r. intros buf. now rewrite write_lead, W, <- app_assoc. }
  destruct (g_method M (gf_type f) v) as [m|] eqn:D.
  - apply method_appends in D. destruct D as (x & r & W). exists (lead (tag_name (gf_tag f)) first ++ x), false, r. intros buf. now rewrite write_lead, W, <- app_assoc.
  - destruct (gf_type f) as [n|n|n w|n w|n c z|n t|t]; try exact G. destruct v; try exact G. destruct (tag_hash (tag_name (gf_tag f))); [exact G|].
    apply encode_all_appends.
Qed.
Lemma marshal_appends fs : forall vs first, exists x e, forall buf, g_marshal_fields M fs vs buf first = (buf ++ x, e).
Proof.
  assert (E : forall e : gend, exists x e', forall buf : bytes, (buf, e) = (buf ++ x, e')) by (intros r; exists [], r; intros; now rewrite app_nil_r).
  induction fs as [|f fs IH]; intros [|v vs] first; cbn [g_marshal_fields]; try apply E. destruct (tag_skips (gf_tag f)); [apply IH|].
  destruct (field_appends f v first) as (x & b & r & F). destruct r.
  - destruct (IH vs b) as (y & e & G). exists (x ++ y), e. intros buf. now rewrite F, G, app_assoc.
  - exists x, (on_field f (MFail e)). intros buf. now rewrite F.
  - exists x, (on_field f MPanic). intros buf. now rewrite F.
Qed.
End Append.

Lemma package_appends : appending_methods package_methods.
Proof.
  split.
  - intros n f v. destruct n as [|[|[|[|[|[|n]]]]]]; cbn; try discriminate; intros [= <-]; eexists; eexists; intros; reflexivity.
  - intros n f p. destruct n as [|[|[|[|[|[|n]]]]]]; discriminate.
Qed.
Lemma package_marshal t v buf : g_marshal package_methods (map package_field (fields_of t)) (package_vals (fields_of t) v) buf =
  (buf ++ marshal_struct (fields_of t) v, EndDone).
Proof.
  destruct (marshal_appends package_methods package_appends (map package_field (fields_of t)) (package_vals (fields_of t) v) true) as (x & e & H).
  unfold g_marshal. rewrite H. specialize (H []). rewrite marshal_agrees in H by apply known_fields. injection H as H <-.
  unfold marshal_struct. now rewrite H.
Qed.
