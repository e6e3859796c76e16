(** Lemmas about structures with tags. *)
From Verif Require Import Base BaseFacts Num NumFacts NumSpec SpecText Base32 Tiger SpecHash TigerFacts AdcText SpecAdc AdcTextFacts AdcValue.

Lemma int64_iff z : int64 z <-> is_int64 z.
Proof. unfold int64, is_int64, two63. change (2 ^ 63)%Z with 9223372036854775808%Z. tauto. Qed.

(** ** Texts of values *)

Lemma symbols_plain : forall t vs, Forall2 symbol t vs -> forall c, In c t -> c <> " "%byte /\ c <> x0a /\ c <> "\"%byte.
Proof.
  induction 1 as [|x v t vs S F IH]; intros c I; [destruct I|]. destruct I as [<-|I]; [|now apply IH].
  assert (K : forallb (fun v => negb (beq (n2b (65 + v)) " " || beq (n2b (65 + v)) x0a || beq (n2b (65 + v)) "\"
     || beq (n2b (24 + v)) " " && (26 <=? v)%N || beq (n2b (24 + v)) x0a && (26 <=? v)%N || beq (n2b (24 + v)) "\" && (26 <=? v)%N))
     (map N.of_nat (seq 0 26)) = true) by (vm_compute; reflexivity).
  assert (K' : forallb (fun v => negb (beq (n2b (24 + v)) " " || beq (n2b (24 + v)) x0a || beq (n2b (24 + v)) "\"))
     (map N.of_nat (seq 26 6)) = true) by (vm_compute; reflexivity).
  rewrite forallb_forall in K, K'.
  assert (M : forall v a n, (N.of_nat a <= v < N.of_nat (a + n))%N -> In v (map N.of_nat (seq a n))).
  { intros w a n R. apply in_map_iff. exists (N.to_nat w). split; [apply N2Nat.id|]. apply in_seq. lia. }
  inversion S; subst.
  - specialize (K v (M v 0 26 ltac:(cbn; lia))). apply negb_true_iff in K. rewrite !orb_false_iff in K.
    destruct K as (((((A & B) & C) & _) & _) & _). apply beq_false in A, B, C. auto.
  - specialize (K' v (M v 26 6 ltac:(cbn; lia))). apply negb_true_iff in K'. rewrite !orb_false_iff in K'.
    destruct K' as ((A & B) & C). apply beq_false in A, B, C. auto.
Qed.

Lemma hash_text_plain h c : length h = 24 -> In c (hash_base32 h) -> c <> " "%byte /\ c <> x0a /\ c <> "\"%byte.
Proof.
  intros L I. destruct (hash_text h L) as (_ & vs & F & _). exact (symbols_plain _ _ F c I).
Qed.

Lemma format_int_plain z c : In c (format_int z) -> c <> " "%byte /\ c <> x0a /\ c <> "\"%byte.
Proof.
  intros I. apply format_int_in in I. destruct I as [I| ->]; [|repeat split; discriminate].
  apply is_digit_iff in I. repeat split; intros ->; vm_compute in I; destruct I as [A B]; try (now apply A); now apply B.
Qed.

Lemma in_join c sep l : In c (join sep l) -> In c sep \/ exists x, In x l /\ In c x.
Proof. apply join_in. Qed.

(** No value written contains a space. *)
Lemma value_no_sp k v : carries k v -> ~ In " "%byte (marshal_value k v).
Proof.
  induction k; cbn [marshal_value carries val] in *; intros C.
  - apply escape_no_sp.
  - intros I. apply format_int_plain in I. tauto.
  - destruct v; cbn; intuition discriminate.
  - tauto.
  - intros I. destruct (hash_text_plain _ _ C I). congruence.
  - intros I. destruct (hash_text_plain _ _ C I). congruence.
  - intros I. apply in_join in I. destruct I as [I|(f & F & I)]; [cbn in I; intuition discriminate|].
    rewrite Forall_forall in C. destruct (C f F) as (_ & N & _). exact (N I).
  - intros I. apply in_join in I. destruct I as [I|(e & E & I)]; [cbn in I; intuition discriminate|].
    apply in_map_iff in E. destruct E as (x & <- & _). exact (escape_no_sp _ I).
  - intros [].
  - destruct v as [x|]; [now apply IHk|intros []].
Qed.

(** Kinds behind a pointer have a text that is never empty. *)
Definition leaf (k : kind) : bool := match k with KSid | KCid | KTth => true | _ => false end.
Definition simple (k : kind) : bool := match k with KPtr k' => leaf k' | _ => true end.

Lemma leaf_text k v : leaf k = true -> carries k v -> marshal_value k v <> [].
Proof.
  destruct k; try discriminate; cbn [marshal_value carries val] in *; intros _ C E.
  - destruct C as [C _]. rewrite E in C. discriminate.
  - destruct (hash_text v C) as [L _]. rewrite E in L. discriminate.
  - destruct (hash_text v C) as [L _]. rewrite E in L. discriminate.
Qed.

Lemma features_loop_ok l : Forall (fun f => length f = 4) l -> features_loop l = Ok l.
Proof.
  induction 1 as [|f l F _ IH]; [reflexivity|]. cbn. unfold feature_unmarshal. rewrite F. cbn. now rewrite IH.
Qed.

Section Decode.

Variable pf : bytes -> float_result.

Lemma unmarshal_int_format z old : is_int64 z -> unmarshal_int pf (format_int z) old = Ok z.
Proof. intros R. unfold unmarshal_int. now rewrite parse_int64_format. Qed.

Lemma escape_no_slash a : ~ In "/"%byte a -> ~ In "/"%byte (escape a).
Proof. intros N I. apply N. apply (escape_in _ _ I); discriminate. Qed.

(** The text of false is not read back: adc/marshal.go:92 *)
Definition readable (k : kind) : val k -> Prop := match k with KBool => fun v => v = true | _ => fun _ => True end.

Lemma value_roundtrip k v : simple k = true -> k <> KStrs -> carries k v -> readable k v ->
  unmarshal_value pf k (marshal_value k v) (zero k) = Ok v.
Proof.
  destruct k; intros S N C W; cbn [marshal_value unmarshal_value carries val simple zero readable] in *.
  - now rewrite unescape_escape.
  - destruct (format_int v) eqn:E; [now apply format_int_not_nil in E|]. rewrite <- E.
    apply unmarshal_int_format. now apply int64_iff.
  - now subst.
  - unfold sid_unmarshal. destruct C as [C _]. now rewrite C.
  - destruct (hash_roundtrips v (repeat x00 24) C (repeat_length _ _)) as (_ & _ & R & _).
    unfold hash_size. rewrite R. reflexivity.
  - destruct (hash_roundtrips v (repeat x00 24) C (repeat_length _ _)) as (_ & R & _).
    unfold hash_size. rewrite R. reflexivity.
  - unfold features_unmarshal, features_marshal. destruct v as [|f l]; [reflexivity|].
    destruct (join (B ",") (f :: l)) eqn:E.
    { exfalso. inversion C as [|? ? [F _] _]; subst. destruct l; [cbn in E; subst; discriminate|].
      rewrite join_cons2 in E. destruct f; discriminate. }
    rewrite <- E. change (B ",") with [","%byte]. rewrite split_byte_join.
    + apply features_loop_ok. eapply Forall_impl; [|exact C]. cbn. tauto.
    + discriminate.
    + rewrite Forall_forall in C. intros x X. apply (C x X).
  - unfold path_unmarshal, path_marshal. cbn [app]. destruct C as [NE C]. change (B "/") with ["/"%byte].
    rewrite split_byte_join.
    + rewrite map_map. rewrite (map_ext _ (fun x => x)); [now rewrite map_id|]. apply unescape_escape.
    + destruct v; [congruence|discriminate].
    + intros x X. apply in_map_iff in X. destruct X as (y & <- & Y). rewrite Forall_forall in C. apply escape_no_slash, (C y Y).
  - congruence.
  - destruct v as [x|]; [|reflexivity]. pose proof (leaf_text k x S C) as NE.
    destruct (marshal_value k x) eqn:E; [congruence|]. rewrite <- E.
    assert (R : unmarshal_value pf k (marshal_value k x) (zero k) = Ok x).
    { clear NE E N. destruct k; try discriminate; cbn [marshal_value unmarshal_value carries val zero] in *.
      - unfold sid_unmarshal. destruct C as [C _]. now rewrite C.
      - destruct (hash_roundtrips x (repeat x00 24) C (repeat_length _ _)) as (_ & _ & R & _).
        unfold hash_size. rewrite R. reflexivity.
      - destruct (hash_roundtrips x (repeat x00 24) C (repeat_length _ _)) as (_ & R & _).
        unfold hash_size. rewrite R. reflexivity. }
    rewrite R. reflexivity.
Qed.

(** ** The words of a structure *)

(** The words that [marshal_field] writes *)
Definition field_words (f : field) (v : val (f_kind f)) : list bytes :=
  if (negb (positional f) && negb (f_req f) && is_zero (f_kind f) v)%bool then []
  else match f_kind f as k return val k -> list bytes with
       | KStrs => fun l => map (fun x => word f (escape x)) l
       | k => fun x => [word f (marshal_value k x)]
       end v.
Fixpoint struct_words (fs : list field) : vals fs -> list bytes :=
  match fs with
  | [] => fun _ => []
  | f :: r => fun v => field_words f (fst v) ++ struct_words r (snd v)
  end.

(** Writing words one after the other *)
Definition add_word (st : bytes * bool) (w : bytes) : bytes * bool :=
  (fst st ++ (if snd st then [] else B " ") ++ w, false).

Lemma write_value_word f t st : write_value f t st = add_word st (word f t).
Proof. destruct st as [b first]. unfold write_value, write_tag, add_word, word, positional. cbn. now rewrite <- !app_assoc. Qed.

Lemma marshal_field_words f v st : marshal_field f v st = fold_left add_word (field_words f v) st.
Proof.
  unfold marshal_field, field_words. destruct (negb (positional f) && negb (f_req f) && is_zero (f_kind f) v)%bool; [reflexivity|].
  destruct f as [n t rq k]. cbn [f_kind] in *.
  destruct k; cbn [fold_left]; rewrite ?write_value_word; try reflexivity.
  revert st. induction v as [|x l IH]; intros st; [reflexivity|]. cbn [fold_left map]. rewrite IH, write_value_word. reflexivity.
Qed.

Lemma marshal_fields_words fs : forall v st, marshal_fields fs v st = fold_left add_word (struct_words fs v) st.
Proof.
  induction fs as [|f r IH]; intros v st; [reflexivity|]. cbn [marshal_fields struct_words].
  rewrite IH, fold_left_app, marshal_field_words. reflexivity.
Qed.

Lemma add_words_later l : forall b, fst (fold_left add_word l (b, false)) = b ++ flat_map (app (B " ")) l.
Proof.
  induction l as [|w l IH]; intros b; cbn [fold_left flat_map]; [now rewrite app_nil_r|].
  unfold add_word at 2. cbn [fst snd]. rewrite IH. now rewrite <- !app_assoc.
Qed.

Lemma join_later w l : join (B " ") (w :: l) = w ++ flat_map (app (B " ")) l.
Proof.
  revert w. induction l as [|x l IH]; intros w; [cbn; now rewrite app_nil_r|].
  rewrite join_cons2, IH. cbn [flat_map]. now rewrite <- !app_assoc.
Qed.

Lemma marshal_struct_words fs v : marshal_struct fs v = join (B " ") (struct_words fs v).
Proof.
  unfold marshal_struct. rewrite marshal_fields_words. destruct (struct_words fs v) as [|w l]; [reflexivity|].
  cbn [fold_left]. unfold add_word at 2. cbn [fst snd app]. rewrite add_words_later, join_later. reflexivity.
Qed.

(** ** Decoding the words of a structure *)

Lemma trim_tag t x : trim_prefix t (t ++ x) = x.
Proof. apply trim_prefix_app. Qed.

Lemma tagged_app t a b : tagged t (a ++ b) = tagged t a ++ tagged t b.
Proof. unfold tagged. now rewrite filter_app, map_app. Qed.

Lemma tagged_none t l : (forall w, In w l -> has_prefix t w = false) -> tagged t l = [].
Proof.
  intros H. unfold tagged. replace (filter (has_prefix t) l) with (@nil bytes); [reflexivity|].
  induction l as [|w l IH]; [reflexivity|]. cbn. rewrite (H w (or_introl eq_refl)). apply IH. intros x X. apply H. now right.
Qed.

Lemma tagged_all t l : tagged t (map (app t) l) = l.
Proof.
  unfold tagged. induction l as [|x l IH]; [reflexivity|]. cbn [map filter]. rewrite has_prefix_app. cbn [map]. now rewrite trim_tag, IH.
Qed.

(** A field whose tag has two letters *)
Definition two (f : field) : bool := (negb (positional f) && (length (f_tag f) =? 2)%nat)%bool.
Lemma word_two f t : two f = true -> word f t = f_tag f ++ t.
Proof. unfold two, word, positional. intros H. apply andb_true_iff in H as [H _]. now rewrite (proj1 (negb_true_iff _) H). Qed.
Lemma word_pos f t : positional f = true -> word f t = t.
Proof. unfold word, positional. intros ->. reflexivity. Qed.

Lemma other_tag t t' x : length t = 2 -> length t' = 2 -> t <> t' -> has_prefix t (t' ++ x) = false.
Proof.
  intros L L' N. destruct (has_prefix t (t' ++ x)) eqn:E; [|reflexivity]. exfalso. apply N.
  apply has_prefix_spec in E. destruct E as [r E].
  destruct t as [|a [|b [|]]]; try discriminate. destruct t' as [|c [|d [|]]]; try discriminate. cbn in E. congruence.
Qed.

(** Words of a tagged field carry its tag *)
Lemma field_words_tag f v w : two f = true -> In w (field_words f v) -> exists x, w = f_tag f ++ x.
Proof.
  intros T. unfold field_words. destruct (negb (positional f) && negb (f_req f) && is_zero (f_kind f) v)%bool; [intros []|].
  destruct f as [n t rq k]. cbn [f_kind] in *.
  destruct k; cbn [In]; try (intros [<-|[]]; rewrite (word_two _ _ T); eexists; reflexivity).
  intros I. apply in_map_iff in I. destruct I as (x & <- & _). rewrite (word_two _ _ T). eexists; reflexivity.
Qed.

(** What a structure must look like: positional fields come first, the others have different
    tags of two letters; booleans are neither positional nor required. *)
Definition field_ok (f : field) : bool :=
  (simple (f_kind f) && match f_kind f with
   | KBool => negb (positional f) && negb (f_req f)
   | KStrs => negb (positional f)
   | KPath => positional f
   | _ => true end)%bool.
Definition tags_differ (fs : list field) : bool :=
  (fix go l := match l with [] => true | t :: r => negb (existsb (bytes_eqb t) r) && go r end)%bool (map f_tag fs).
Definition all_two (fs : list field) : bool := (forallb two fs && tags_differ fs && forallb field_ok fs)%bool.
Fixpoint struct_ok (fs : list field) : bool :=
  match fs with
  | [] => true
  | f :: r => if positional f then (field_ok f && struct_ok r)%bool else all_two fs
  end.

Lemma zero_is_zero k v : is_zero k v = true -> v = zero k.
Proof.
  destruct k; cbn [is_zero zero val] in *; intros H;
    try (now apply Z.eqb_eq); try (now apply bytes_eqb_true); now destruct v.
Qed.
Lemma is_zero_zero k : is_zero k (zero k) = true.
Proof. destruct k; cbn; try reflexivity; try apply bytes_eqb_refl. Qed.

(** One tagged field *)
Lemma field_decodes f v : two f = true -> field_ok f = true -> carries (f_kind f) v ->
  unmarshal_tagged pf (f_kind f) (tagged (f_tag f) (field_words f v)) (zero (f_kind f)) = Ok v.
Proof.
  intros T O C. unfold field_words.
  assert (P : positional f = false) by (unfold two in T; apply andb_true_iff in T as [T _]; now apply negb_true_iff).
  destruct (negb (positional f) && negb (f_req f) && is_zero (f_kind f) v)%bool eqn:Z.
  { apply andb_true_iff in Z as [_ Z]. cbn. f_equal. symmetry. now apply zero_is_zero. }
  destruct f as [n t rq k]. cbn [f_kind f_tag] in *.
  assert (W : readable k v).
  { destruct k; try exact I. unfold field_ok in O. cbn [f_kind f_req simple] in O. rewrite P in O, Z.
    cbn [f_req is_zero negb andb] in Z, O. destruct rq; [discriminate|]. cbn in Z. destruct v; [reflexivity|discriminate]. }
  assert (R : k <> KStrs -> unmarshal_value pf k (marshal_value k v) (zero k) = Ok v).
  { intros NS. apply value_roundtrip; try assumption. unfold field_ok in O. cbn [f_kind] in O. now apply andb_true_iff in O as [O _]. }
  assert (One : k <> KStrs -> unmarshal_tagged pf k (tagged t [t ++ marshal_value k v]) (zero k) = Ok v).
  { intros NS. change [t ++ marshal_value k v] with (map (app t) [marshal_value k v]). rewrite tagged_all.
    specialize (R NS). destruct k; try congruence; exact R. }
  destruct k; rewrite ?(word_two _ _ T); cbn [f_tag] in *; try (apply One; discriminate).
  replace (map _ v) with (map (app t) (map escape v)).
  2:{ rewrite map_map. apply map_ext. intros x. now rewrite (word_two _ _ T). }
  rewrite tagged_all. destruct v as [|x l]; [reflexivity|]. cbn [map unmarshal_tagged unmarshaler].
  change (unescape (escape x) :: map unescape (map escape l)) with (map unescape (map escape (x :: l))).
  rewrite map_map, (map_ext _ (fun x => x)), map_id; [reflexivity|]. apply unescape_escape.
Qed.

(** The tags of the words of tagged fields *)
Lemma struct_words_tag fs : forall v w, forallb two fs = true -> In w (struct_words fs v) -> exists f x, In f fs /\ w = f_tag f ++ x.
Proof.
  induction fs as [|f r IH]; intros v w T I; [destruct I|]. cbn in T. apply andb_true_iff in T as [T T'].
  cbn [struct_words] in I. apply in_app_iff in I. destruct I as [I|I].
  - destruct (field_words_tag f _ w T I) as [x X]. exists f, x. split; [now left|assumption].
  - destruct (IH _ w T' I) as (g & x & G & X). exists g, x. split; [now right|assumption].
Qed.

Lemma two_length f : two f = true -> length (f_tag f) = 2 /\ positional f = false.
Proof. unfold two. intros H. apply andb_true_iff in H as [A B]. apply negb_true_iff in A. apply Nat.eqb_eq in B. auto. Qed.

(** All tagged fields, behind words with other tags *)
Lemma tagged_decodes fs : forall pre v, all_two fs = true -> carries_all fs v ->
  (forall f w, In f fs -> In w pre -> has_prefix (f_tag f) w = false) ->
  unmarshal_fields pf fs (pre ++ struct_words fs v) (zeros fs) = Ok v.
Proof.
  induction fs as [|f r IH]; intros pre v A C P.
  { destruct v. reflexivity. }
  unfold all_two in A. cbn [forallb] in A. apply andb_true_iff in A as [A OK]. apply andb_true_iff in A as [T D].
  apply andb_true_iff in T as [T T']. apply andb_true_iff in OK as [O O'].
  cbn [tags_differ map] in D. unfold tags_differ in D. cbn [map] in D. apply andb_true_iff in D as [D D'].
  apply negb_true_iff in D.
  assert (NT : forall g, In g r -> f_tag f <> f_tag g).
  { intros g G E. assert (X : existsb (bytes_eqb (f_tag f)) (map f_tag r) = true); [|congruence].
    apply existsb_exists. exists (f_tag g). split; [now apply in_map|]. rewrite E. apply bytes_eqb_refl. }
  destruct v as [x v]. destruct C as [C C']. cbn [fst snd] in C, C'.
  destruct (two_length f T) as [L NP]. cbn [unmarshal_fields struct_words zeros fst snd]. rewrite NP.
  rewrite !tagged_app.
  rewrite (tagged_none (f_tag f) pre) by (intros w W; apply P; [now left|assumption]).
  rewrite (tagged_none (f_tag f) (struct_words r v)).
  2:{ intros w W. destruct (struct_words_tag r v w T' W) as (g & y & G & ->).
      rewrite forallb_forall in T'. destruct (two_length g (T' g G)) as [L' _]. apply other_tag; auto. }
  cbn [app]. rewrite app_nil_r, field_decodes by assumption. cbn [bind].
  rewrite app_assoc. rewrite (IH (pre ++ field_words f x) v).
  - reflexivity.
  - unfold all_two. rewrite T', O'. unfold tags_differ. now rewrite D'.
  - assumption.
  - intros g w G W. apply in_app_iff in W. destruct W as [W|W]; [apply P; [now right|assumption]|].
    destruct (field_words_tag f x w T W) as [y ->]. rewrite forallb_forall in T'.
    destruct (two_length g (T' g G)) as [L' _]. apply other_tag; auto. intros E. symmetry in E. exact (NT g G E).
Qed.

Lemma pos_words f v : positional f = true -> field_ok f = true -> field_words f v = [marshal_value (f_kind f) v].
Proof.
  intros P O. unfold field_words. rewrite P. cbn [negb andb]. unfold field_ok in O. rewrite P in O.
  pose proof (fun t => word_pos f t P) as W. destruct f as [n t rq k]. cbn [f_kind] in *.
  destruct k; rewrite ?W; try reflexivity. discriminate.
Qed.

Lemma struct_decodes fs : forall v, struct_ok fs = true -> carries_all fs v ->
  unmarshal_fields pf fs (struct_words fs v) (zeros fs) = Ok v.
Proof.
  induction fs as [|f r IH]; intros v S C; [destruct v; reflexivity|].
  cbn [struct_ok] in S. destruct (positional f) eqn:P.
  - apply andb_true_iff in S as [O S]. destruct v as [x v]. destruct C as [C C']. cbn [fst snd] in C, C'.
    cbn [unmarshal_fields struct_words zeros fst snd]. rewrite P, (pos_words f x P O). cbn [app].
    rewrite (value_roundtrip (f_kind f) x).
    + cbn [bind]. rewrite IH by assumption. reflexivity.
    + unfold field_ok in O. now apply andb_true_iff in O as [O _].
    + intros E. unfold field_ok in O. rewrite E, P in O. discriminate.
    + assumption.
    + unfold field_ok in O. rewrite P in O. destruct f as [n t rq k]. cbn [f_kind] in *. destruct k; try exact I. discriminate.
  - apply (tagged_decodes (f :: r) []); auto. intros ? ? _ [].
Qed.

Lemma field_words_no_sp f v w : ~ In " "%byte (f_tag f) -> carries (f_kind f) v -> In w (field_words f v) -> ~ In " "%byte w.
Proof.
  intros T C. unfold field_words. destruct (negb (positional f) && negb (f_req f) && is_zero (f_kind f) v)%bool; [intros []|].
  assert (X : forall t, ~ In " "%byte t -> ~ In " "%byte (word f t)).
  { intros t N. unfold word. apply in_app_not; [|assumption]. destruct (bytes_eqb _ _); [intros []|assumption]. }
  destruct f as [n t rq k]. cbn [f_kind] in *.
  destruct k; cbn [In]; try (intros [<-|[]]; apply X; now apply value_no_sp).
  intros I. apply in_map_iff in I. destruct I as (x & <- & _). apply X, escape_no_sp.
Qed.

Lemma struct_words_no_sp fs : forall v w, forallb (fun f => negb (contains_byte " " (f_tag f))) fs = true ->
  carries_all fs v -> In w (struct_words fs v) -> ~ In " "%byte w.
Proof.
  induction fs as [|f r IH]; intros v w T C I; [destruct I|]. cbn in T. apply andb_true_iff in T as [T T'].
  destruct C as [C C']. cbn [struct_words] in I. apply in_app_iff in I. destruct I as [I|I]; [|now apply (IH (snd v))].
  apply (field_words_no_sp f (fst v)); try assumption. apply contains_byte_false. now apply negb_true_iff.
Qed.

(** Structures whose shape is right round-trip. *)
Definition shape_ok (fs : list field) : bool :=
  (struct_ok fs && forallb (fun f => negb (contains_byte " " (f_tag f))) fs)%bool.

Lemma struct_roundtrip fs v : shape_ok fs = true -> carries_all fs v ->
  unmarshal_struct pf fs (marshal_struct fs v) (zeros fs) = Ok v.
Proof.
  intros S C. apply andb_true_iff in S as [S N]. unfold unmarshal_struct. rewrite marshal_struct_words.
  destruct (struct_words fs v) as [|w l] eqn:E.
  - cbn [join split_byte].
    destruct fs as [|f r]; [now destruct v|]. cbn [struct_ok] in S. destruct (positional f) eqn:P.
    + exfalso. apply andb_true_iff in S as [O _]. cbn [struct_words] in E. rewrite (pos_words f _ P O) in E. discriminate.
    + assert (X := tagged_decodes (f :: r) [[]] v S C). rewrite E in X. apply X. clear X.
      intros g w G W. destruct W as [<-|[]]. unfold all_two in S. apply andb_true_iff in S as [S _]. apply andb_true_iff in S as [S _].
      rewrite forallb_forall in S. destruct (two_length g (S g G)) as [L _].
      destruct (f_tag g); [discriminate|reflexivity].
  - rewrite <- E. change (B " ") with [" "%byte]. rewrite split_byte_join.
    + now apply struct_decodes.
    + rewrite E. discriminate.
    + intros x X. exact (struct_words_no_sp fs v x N C X).
Qed.

End Decode.
