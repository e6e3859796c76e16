(** Lemmas about ADC messages. *)
From Coq Require Import Permutation.
From Verif Require Import Base BaseFacts Num NumFacts NumSpec SpecText Base32 Base32Facts Tiger SpecHash TigerFacts.
From Verif Require Import AdcText SpecAdc AdcTextFacts AdcValue AdcValueFacts AdcMessage AdcPacket SpecAdcMessage.

(** ** Structures *)

Lemma shapes t : shape_ok (fields_of t) = true.
Proof. destruct t; vm_compute; reflexivity. Qed.

Lemma message_roundtrip pf t v : carries_all (fields_of t) v ->
  unmarshal pf (marshal (AStruct t v)) (new_struct t) = Ok (AStruct t v).
Proof. intros C. cbn [marshal unmarshal new_struct]. rewrite (struct_roundtrip pf _ v (shapes t) C). reflexivity. Qed.

(** The words are those of the specification. *)
Lemma zero_dec k (v : val k) : is_zero k v = true <-> v = zero k.
Proof. split; [apply zero_is_zero|intros ->; apply is_zero_zero]. Qed.

Lemma value_text k v : simple k = true -> k <> KStrs -> carries k v -> v <> zero k \/ (k <> KBool /\ forall k', k <> KPtr k') ->
  text k v (marshal_value k v).
Proof.
  destruct k; intros S N C Z; cbn [text marshal_value carries val simple] in *.
  - apply escape_escaped.
  - split; [apply signed_decimal_iff, denotes_format_int|]. apply format_int_notin; [reflexivity|discriminate].
  - reflexivity.
  - reflexivity.
  - apply hash_text, C.
  - apply hash_text, C.
  - reflexivity.
  - exists (map escape v). split; [|reflexivity]. clear. induction v; cbn; constructor; auto using escape_escaped.
  - congruence.
  - destruct v as [x|]; [|destruct Z as [Z|[_ Z]]; [now apply Z|now apply (Z k)]].
    clear Z N. destruct k; try discriminate; cbn [text marshal_value carries val] in *.
    + reflexivity.
    + apply hash_text, C.
    + apply hash_text, C.
Qed.

Lemma field_words_ok f v : field_ok f = true -> (positional f = true -> leaf (f_kind f) = true \/ simple (f_kind f) = true) ->
  (forall k, f_kind f = KPtr k -> positional f = false /\ f_req f = false) ->
  carries (f_kind f) v -> words f v (field_words f v).
Proof.
  intros O _ NP C. unfold words, field_words.
  assert (Om : (negb (positional f) && negb (f_req f) && is_zero (f_kind f) v)%bool = true <-> omitted f v).
  { unfold omitted, positional. rewrite !andb_true_iff, !negb_true_iff, bytes_eqb_false, zero_dec. tauto. }
  destruct (negb (positional f) && negb (f_req f) && is_zero (f_kind f) v)%bool eqn:E.
  { left. split; [now apply Om|reflexivity]. }
  right. assert (NO : ~ omitted f v) by (intros X; apply Om in X; congruence). split; [assumption|].
  assert (T : f_kind f <> KStrs -> text (f_kind f) v (marshal_value (f_kind f) v)).
  { intros NS. apply value_text; try assumption; [unfold field_ok in O; now apply andb_true_iff in O as [O _]|].
    destruct (is_zero (f_kind f) v) eqn:Z; [|left; intros ->; rewrite is_zero_zero in Z; discriminate].
    right. split.
    - intros K. unfold field_ok in O. rewrite K in O. apply andb_true_iff in O as [_ O]. rewrite O in E. discriminate.
    - intros k K. destruct (NP k K) as [P R]. rewrite P, R in E. discriminate. }
  clear Om E NO NP. destruct f as [n t rq k]. cbn [f_kind] in *.
  destruct k; try (eexists; split; [apply T; discriminate|reflexivity]).
  exists (map escape v). split; [|now rewrite map_map]. clear. induction v; cbn; constructor; auto using escape_escaped.
Qed.

Definition pointers_optional (f : field) : bool :=
  match f_kind f with KPtr _ => (negb (positional f) && negb (f_req f))%bool | _ => true end.
Lemma struct_words_ok fs : forall v, forallb field_ok fs = true -> forallb pointers_optional fs = true -> carries_all fs v ->
  all_words fs v (struct_words fs v).
Proof.
  induction fs as [|f r IH]; intros v O P C; [reflexivity|]. cbn [forallb] in O, P.
  apply andb_true_iff in O as [O O']. apply andb_true_iff in P as [P P']. destruct C as [C C'].
  cbn [struct_words all_words]. do 2 eexists. split; [|split; [now apply IH|reflexivity]].
  apply field_words_ok; try assumption.
  - unfold field_ok in O. apply andb_true_iff in O as [O _]. auto.
  - intros k K. unfold pointers_optional in P. rewrite K in P. apply andb_true_iff in P as [A B].
    now rewrite negb_true_iff in A, B.
Qed.

Lemma message_words t v : carries_all (fields_of t) v ->
  exists l, all_words (fields_of t) v l /\ marshal (AStruct t v) = join (B " ") l.
Proof.
  intros C. exists (struct_words (fields_of t) v). split; [|apply marshal_struct_words].
  apply struct_words_ok; [destruct t; vm_compute; reflexivity|destruct t; vm_compute; reflexivity|assumption].
Qed.

(** ** Words *)

Lemma signed_int x z : signed_decimal x z /\ int64 z <-> parse_int64 x = Ok z.
Proof. rewrite parse_int64_spec, signed_decimal_iff, int64_iff. tauto. Qed.

Lemma separated_split s ws : separated s ws -> split_byte " " s = ws.
Proof.
  intros (N & F & ->). apply split_byte_join; [assumption|]. now rewrite Forall_forall in F.
Qed.
Lemma split_separated s : separated s (split_byte " " s).
Proof.
  split; [apply split_byte_not_nil|]. split; [|symmetry; apply join_split_byte]. apply Forall_forall. intros w W. exact (split_byte_pieces _ _ _ W).
Qed.

Lemma values_tagged tag ws : length tag = 2 -> tagged tag ws = values tag ws.
Proof.
  intros L. unfold tagged, values. induction ws as [|w ws IH]; [reflexivity|]. cbn [filter flat_map].
  destruct tag as [|a [|b [|]]]; try discriminate.
  assert (E : has_prefix [a; b] w = bytes_eqb (firstn 2 w) [a; b]).
  { destruct w as [|c [|d w]]; cbn; try reflexivity.
    - now rewrite !andb_false_r.
    - rewrite (beq_sym a c), (beq_sym b d). now rewrite !andb_true_r. }
  rewrite E. destruct (bytes_eqb (firstn 2 w) [a; b]) eqn:F; cbn [map app]; rewrite <- IH; [|reflexivity].
  f_equal. apply bytes_eqb_true in F. destruct w as [|c [|d w]]; try discriminate. cbn in F. injection F as -> ->.
  change (a :: b :: w) with ([a; b] ++ w). apply trim_prefix_app.
Qed.

(** ** Crashes *)

Lemma of_hash_panic r : of_hash r = Panic -> fst r = Panic.
Proof. destruct r as [[u|e|] h]; cbn; congruence. Qed.

Section Decode.

Variable pf : bytes -> float_result.

Lemma features_loop_total l : features_loop l <> Panic.
Proof.
  induction l as [|s l IH]; [discriminate|]. cbn. unfold feature_unmarshal. destruct (length s =? 4)%nat; cbn; [|discriminate].
  destruct (features_loop l); cbn; congruence.
Qed.

(** Hashes have 24 bytes *)
Definition sized (k : kind) : val k -> Prop :=
  match k with KTth => fun h => length h = 24 | _ => fun _ => True end.

Lemma value_panic k s old : simple k = true -> sized k old -> unmarshal_value pf k s old = Panic ->
  (k = KTth \/ k = KPtr KTth) /\ overlong s.
Proof.
  intros S Z H. destruct k; cbn [unmarshal_value sized val simple] in *.
  - discriminate.
  - destruct s; [discriminate|]. unfold unmarshal_int in H. destruct (parse_int64 _) eqn:E; try discriminate.
    + destruct (pf _); discriminate.
    + now apply parse_int64_total in E.
  - destruct s as [|c [|d t]]; discriminate.
  - unfold sid_unmarshal in H. destruct (length s =? 4)%nat; discriminate.
  - apply of_hash_panic in H. unfold cid_from_base32 in H.
    destruct (hash_from_base32 (repeat x00 hash_size) s) as [r h] eqn:E. pose proof (from_base32_total (repeat x00 hash_size) s) as [T _].
    rewrite E in T. destruct r; cbn in *; congruence.
  - apply of_hash_panic in H. apply unmarshal_panics in H; [|assumption]. auto.
  - unfold features_unmarshal in H. destruct s; [discriminate|]. now apply features_loop_total in H.
  - discriminate.
  - destruct s; discriminate.
  - destruct s as [|c s]; [discriminate|]. apply bind_panic in H. destruct H as [H|(x & _ & H)]; [|discriminate].
    destruct k; try discriminate; cbn [unmarshal_value zero] in H.
    + unfold sid_unmarshal in H. destruct (length (c :: s) =? 4)%nat; discriminate.
    + apply of_hash_panic in H. unfold cid_from_base32 in H.
      destruct (hash_from_base32 (repeat x00 hash_size) (c :: s)) as [r h] eqn:E. pose proof (from_base32_total (repeat x00 hash_size) (c :: s)) as [T _].
      rewrite E in T. destruct r; cbn in *; congruence.
    + apply of_hash_panic in H. apply unmarshal_panics in H; [|apply repeat_length]. auto.
Qed.

Fixpoint sized_all (fs : list field) : vals fs -> Prop :=
  match fs with [] => fun _ => True | f :: r => fun v => sized (f_kind f) (fst v) /\ sized_all r (snd v) end.
Lemma zeros_sized fs : sized_all fs (zeros fs).
Proof. induction fs; cbn; [trivial|]. split; [|assumption]. now destruct (f_kind a). Qed.


(** A crash comes from too few words or from an overlong hash *)
Lemma fields_panic fs : forall sub old, forallb (fun f => simple (f_kind f)) fs = true -> sized_all fs old ->
  unmarshal_fields pf fs sub old = Panic ->
  length sub < positionals fs \/
  exists f w, In f fs /\ (f_kind f = KTth \/ f_kind f = KPtr KTth) /\
    (positional f = true /\ In w sub \/ positional f = false /\ In (f_tag f ++ w) sub) /\ overlong w.
Proof.
  induction fs as [|f r IH]; intros sub old S Z H; [discriminate|]. cbn [forallb] in S. apply andb_true_iff in S as [S S'].
  destruct Z as [Z Z']. cbn [unmarshal_fields] in H. unfold positionals. cbn [filter].
  destruct (positional f) eqn:P.
  - destruct sub as [|w sub]; [left; cbn; lia|]. cbn [length].
    apply bind_panic in H. destruct H as [H|(x & _ & H)].
    + apply value_panic in H; try assumption. destruct H as [K O]. right. exists f, w. cbn. intuition.
    + apply bind_panic in H. destruct H as [H|(l & _ & H)]; [|discriminate].
      apply IH in H; try assumption. destruct H as [H|(g & w' & G & K & W & O)]; [left; unfold positionals in H; lia|].
      right. exists g, w'. cbn. intuition.
  - apply bind_panic in H. destruct H as [H|(x & _ & H)].
    + right. unfold unmarshal_tagged in H. destruct (tagged (f_tag f) sub) as [|v more] eqn:T; [discriminate|].
      assert (W : In (f_tag f ++ v) sub).
      { assert (I : In v (tagged (f_tag f) sub)) by (rewrite T; now left).
        unfold tagged in I. apply in_map_iff in I. destruct I as (w & E & I). apply filter_In in I. destruct I as [I A].
        apply has_prefix_spec in A. destruct A as [q ->]. rewrite trim_prefix_app in E. now subst. }
      assert (K : unmarshal_value pf (f_kind f) v (fst old) = Panic).
      { destruct (unmarshaler (f_kind f)); [assumption|]. clear -H. destruct f as [n t rq k]. cbn [f_kind] in *.
        destruct k; try discriminate; destruct more; try discriminate; assumption. }
      apply value_panic in K; try assumption. destruct K as [K O]. exists f, v. cbn. intuition.
    + apply bind_panic in H. destruct H as [H|(l & _ & H)]; [|discriminate].
      apply IH in H; try assumption. destruct H as [H|(g & w' & G & K & W & O)]; [now left|].
      right. exists g, w'. cbn. intuition.
Qed.

Lemma mod_loop_total v l : forall m, mod_loop v l m <> Panic.
Proof.
  induction l as [|n l IH]; intros m; [discriminate|]. cbn. unfold feature_unmarshal. destruct (length n =? 4)%nat; cbn; [apply IH|discriminate].
Qed.
Lemma modfeatures_total s m : modfeatures_unmarshal pf s m <> Panic.
Proof.
  unfold modfeatures_unmarshal. intros H. apply bind_panic in H. destruct H as [H|((add & rm & u) & _ & H)].
  - apply fields_panic in H; [|reflexivity|apply zeros_sized]. destruct H as [H|(f & w & F & K & _)].
    + change (positionals mod_fields) with 0 in H. lia.
    + destruct F as [<-|[<-|[]]]; cbn in K; intuition discriminate.
  - apply bind_panic in H. destruct H as [H|(m1 & _ & H)]; exact (mod_loop_total _ _ _ H).
Qed.

Lemma status_total s : status_unmarshal s <> Panic.
Proof.
  unfold status_unmarshal. destruct (match cut " " s with Some _ => _ | None => _ end) as [h m]. intros H.
  apply bind_panic in H. destruct H as [H|(c & _ & H)]; [now apply parse_int64_total in H|discriminate].
Qed.

Lemma get_total g s : get_unmarshal g s <> Panic.
Proof.
  unfold get_unmarshal. destruct (cut " " s) as [[a s1]|]; [|discriminate]. destruct (cut " " s1) as [[b s2]|]; [|discriminate].
  destruct (cut " " s2) as [[c s3]|]; [|discriminate]. destruct (parse_int64 c); try discriminate.
  destruct (match cut " " s3 with Some _ => _ | None => _ end) as [h m]. destruct (parse_int64 h); try discriminate.
  destruct m; [discriminate|]. destruct (bytes_eqb _ _); discriminate.
Qed.

Lemma fields_total s : fields_unmarshal s <> Panic.
Proof.
  unfold fields_unmarshal. destruct s as [|c s]; [discriminate|]. generalize (split_byte " " (c :: s)).
  induction l as [|v l IH]; [discriminate|]. cbn. destruct v as [|a [|b v]]; try discriminate. destruct (fields_loop l); cbn; congruence.
Qed.

Lemma decoded_le n : decoded n <= b32_decoded_len n.
Proof.
  unfold decoded, b32_decoded_len. pose proof (Nat.div_mod n 8 ltac:(lia)) as D. pose proof (Nat.mod_upper_bound n 8 ltac:(lia)) as U.
  set (q := n / 8) in *. set (r := n mod 8) in *. assert (E : n * 5 / 8 = 5 * q + r * 5 / 8).
  { rewrite D. replace ((8 * q + r) * 5) with (r * 5 + (5 * q) * 8) by lia. rewrite Nat.div_add by lia. lia. }
  rewrite E. apply Nat.add_le_mono_l. assert (K : forall r, r < 8 -> pack_bits r / 8 <= r * 5 / 8).
  { intros x X. do 8 (destruct x as [|x]; [vm_compute; lia|]). lia. }
  now apply K.
Qed.
Lemma decoded_mono a b : a <= b -> b32_decoded_len a <= b32_decoded_len b.
Proof. intros L. unfold b32_decoded_len. apply Nat.div_le_mono; lia. Qed.

Lemma gpa_total s : gpa_unmarshal s <> Panic.
Proof.
  unfold gpa_unmarshal, b32_decode_to. destruct (b32_decode [] (strip_newlines s)) as [b e] eqn:E. rewrite repeat_length.
  assert (L : length b <= b32_decoded_len (length s)).
  { assert (Ls : length (strip_newlines s) <= length s).
    { unfold strip_newlines. clear. induction s as [|c s IH]; [cbn; lia|]. cbn. destruct (negb _); cbn; lia. }
    destruct (decode_char (strip_newlines s) [] ltac:(cbn; lia)) as (ws & tail & Et & _ & _ & Ed). rewrite E in Ed. cbn [app] in Ed.
    assert (Lw : length ws <= length s) by (rewrite Et, app_length, map_length in Ls; lia).
    destruct (packs_length ws) as [P F].
    destruct (pad_ok _ tail); injection Ed as -> _; rewrite ?P, ?F.
    - etransitivity; [apply decoded_le|]. now apply decoded_mono.
    - etransitivity; [|apply (decoded_mono (length ws)); assumption]. etransitivity; [|apply decoded_le]. unfold decoded. lia. }
  destruct (Nat.ltb_spec (b32_decoded_len (length s)) (length b)); [lia|]. destruct e; discriminate.
Qed.


(** ** What the fields hold after decoding *)

Definition names_ok (fs : list field) : bool :=
  (fix go l := match l with [] => true | t :: r => negb (existsb (String.eqb t) r) && go r end)%bool (map f_name fs).

Lemma field_after fs : forall sub old v f, struct_ok fs = true -> names_ok fs = true ->
  unmarshal_fields pf fs sub old = Ok v -> In f fs -> positional f = false ->
  exists o x, unmarshal_tagged pf (f_kind f) (tagged (f_tag f) (skipn (positionals fs) sub)) o = Ok x /\
    forall k, get_field k (f_name f) fs v = cast (f_kind f) k x /\ get_field k (f_name f) fs old = cast (f_kind f) k o.
Proof.
  assert (AT : forall fs sub old v f, forallb two fs = true -> names_ok fs = true -> unmarshal_fields pf fs sub old = Ok v -> In f fs ->
    exists o x, unmarshal_tagged pf (f_kind f) (tagged (f_tag f) sub) o = Ok x /\
      forall k, get_field k (f_name f) fs v = cast (f_kind f) k x /\ get_field k (f_name f) fs old = cast (f_kind f) k o).
  { clear fs. induction fs as [|g r IH]; intros sub old v f T N H I; [destruct I|]. cbn [forallb] in T. apply andb_true_iff in T as [T T'].
    unfold names_ok in N. cbn [map] in N. apply andb_true_iff in N as [N N']. apply negb_true_iff in N.
    destruct (two_length g T) as [_ NP]. cbn [unmarshal_fields] in H. rewrite NP in H.
    apply bind_ok in H. destruct H as (x & X & H). apply bind_ok in H. destruct H as (l & L & H). injection H as <-.
    destruct I as [->|I].
    - exists (fst old), x. split; [exact X|]. intros k. cbn [get_field]. rewrite String.eqb_refl. auto.
    - destruct (IH sub (snd old) l f T' N' L I) as (o & y & Y & G). exists o, y. split; [exact Y|]. intros k. cbn [get_field].
      destruct (String.eqb_spec (f_name g) (f_name f)) as [E|E]; [|apply G]. exfalso.
      assert (X' : existsb (String.eqb (f_name g)) (map f_name r) = true); [|congruence].
      apply existsb_exists. exists (f_name f). split; [now apply in_map|]. apply String.eqb_eq, E. }
  induction fs as [|g r IH]; intros sub old v f S N H I P; [destruct I|].
  cbn [struct_ok] in S. destruct (positional g) eqn:PG.
  - apply andb_true_iff in S as [_ S]. unfold names_ok in N. cbn [map] in N. apply andb_true_iff in N as [N N']. apply negb_true_iff in N.
    unfold positionals. cbn [filter unmarshal_fields] in *. rewrite PG in *. destruct sub as [|w sub]; [discriminate|].
    apply bind_ok in H. destruct H as (x & X & H). apply bind_ok in H. destruct H as (l & L & H). injection H as <-.
    destruct I as [->|I]; [congruence|]. cbn [length skipn].
    destruct (IH sub (snd old) l f S N' L I P) as (o & y & Y & G). exists o, y. split; [exact Y|]. intros k. cbn [get_field].
    destruct (String.eqb_spec (f_name g) (f_name f)) as [E|E]; [|apply G]. exfalso.
    assert (X' : existsb (String.eqb (f_name g)) (map f_name r) = true); [|congruence].
    apply existsb_exists. exists (f_name f). split; [now apply in_map|]. apply String.eqb_eq, E.
  - unfold all_two in S. apply andb_true_iff in S as [S _]. apply andb_true_iff in S as [S _].
    assert (Z : positionals (g :: r) = 0).
    { unfold positionals. assert (Q : forall l, forallb two l = true -> filter positional l = []).
      { induction l as [|h l IHl]; [reflexivity|]. cbn. intros A. apply andb_true_iff in A as [A A'].
        rewrite (proj2 (two_length h A)). now apply IHl. }
      now rewrite (Q _ S). }
    rewrite Z. now apply AT.
Qed.

Lemma names t : names_ok (fields_of t) = true.
Proof. destruct t; vm_compute; reflexivity. Qed.
Lemma struct_oks t : struct_ok (fields_of t) = true.
Proof. destruct t; vm_compute; reflexivity. Qed.

Lemma number_spec x old z : unmarshal_value pf KInt x old = Ok z <-> number pf x old z.
Proof.
  cbn [unmarshal_value]. unfold number. destruct x as [|c x].
  - split; [intros [= <-]; now left|]. intros [[_ ->]|[H|[H _]]]; [reflexivity| |congruence].
    apply signed_int in H. discriminate.
  - unfold unmarshal_int. destruct (parse_int64 (c :: x)) as [y|e|] eqn:E.
    + assert (Y := E). apply signed_int in Y. split.
      * intros [= <-]. right. now left.
      * intros [[H _]|[H|(_ & H & _)]]; [discriminate|apply signed_int in H; exact (eq_trans (eq_sym E) H)|].
        exfalso. destruct Y as [Y Y']. exact (H y Y Y').
    + assert (NP : forall z', signed_decimal (c :: x) z' -> ~ int64 z').
      { intros z' A A'. assert (K := proj1 (signed_int _ _) (conj A A')). congruence. }
      assert (NQ : c :: x <> []) by discriminate.
      split.
      * intros H. right; right. split; [assumption|]. split; [assumption|].
        destruct (pf (c :: x)) as [| |v] eqn:F; [discriminate|right|left].
        -- split; [reflexivity|]. assert (K : @Ok Z old = Ok z) by exact H. now injection K.
        -- assert (K : @Ok Z v = Ok z) by exact H. injection K as ->. reflexivity.
      * intros [[H _]|[[H H']|(_ & _ & H)]]; [discriminate|exfalso; exact (NP _ H H')|].
        destruct H as [->|[-> ->]]; reflexivity.
    + now apply parse_int64_total in E.
Qed.

(** Tagged integers *)
Lemma tagged_int t n tag rq s ws old v : In {| f_name := n; f_tag := tag; f_req := rq; f_kind := KInt |} (fields_of t) ->
  tag <> B "#" -> separated s ws -> unmarshal pf s (AStruct t old) = Ok (AStruct t v) ->
  exists o z, get_field KInt n (fields_of t) old = Some o /\ get_field KInt n (fields_of t) v = Some z /\
  match values tag (skipn (positionals (fields_of t)) ws) with
  | [] => z = o
  | [x] => number pf x o z
  | _ => False
  end.
Proof.
  intros I T W H. cbn [unmarshal] in H. apply bind_ok in H. destruct H as (v' & H & E).
  assert (v' = v).
  { injection E as E. clear - E. apply (Eqdep_dec.inj_pair2_eq_dec stype) in E; [assumption|]. decide equality. }
  subst v'. unfold unmarshal_struct in H. rewrite (separated_split _ _ W) in H.
  assert (P : positional {| f_name := n; f_tag := tag; f_req := rq; f_kind := KInt |} = false) by (unfold positional; now apply bytes_eqb_false).
  destruct (field_after _ _ _ _ _ (struct_oks t) (names t) H I P) as (o & z & Z & G).
  destruct (G KInt) as [G1 G2]. cbn [f_name f_kind cast] in G1, G2. exists o, z. split; [assumption|]. split; [assumption|].
  cbn [f_kind f_tag] in Z.
  assert (L : length tag = 2).
  { assert (A : forallb (fun f => positional f || (length (f_tag f) =? 2)%nat)%bool (fields_of t) = true) by (destruct t; vm_compute; reflexivity).
    rewrite forallb_forall in A. specialize (A _ I). rewrite P in A. cbn in A. now apply Nat.eqb_eq. }
  rewrite (values_tagged _ _ L) in Z. destruct (values tag _) as [|x [|y l]].
  - cbn in Z. congruence.
  - apply number_spec. exact Z.
  - discriminate.
Qed.

End Decode.

Lemma boolint_exact s : boolint_unmarshal s <> Panic /\
  forall b, boolint_unmarshal s = Ok b <-> s = boolint_marshal b /\ boolint_marshal b = (if b then B "1" else B "0").
Proof.
  unfold boolint_unmarshal, boolint_marshal. destruct s as [|c [|d s]].
  - split; [discriminate|]. intros []; split; [discriminate|intros [[=] _]|discriminate|intros [[=] _]].
  - destruct (beq c "0") eqn:E0; [apply beq_true in E0; subst c|].
    + split; [discriminate|]. intros []; split; intros K; try discriminate; try (destruct K as [[=] _]); auto.
    + destruct (beq c "1") eqn:E1; [apply beq_true in E1; subst c|].
      * split; [discriminate|]. intros []; split; intros K; try discriminate; try (destruct K as [[=] _]); auto.
      * split; [discriminate|]. intros []; split; intros K; try discriminate; destruct K as [[= ->] _]; discriminate.
  - split; [discriminate|]. intros []; split; intros K; try discriminate; destruct K as [[=] _].
Qed.
