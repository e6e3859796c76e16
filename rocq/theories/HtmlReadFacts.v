(** The unescaping functions implement the relations of SpecRead.v. *)
From Verif Require Import Base BaseFacts Utf8 Utf8Facts HtmlTable Html HtmlFacts NmdcText SpecText SpecNmdc NmdcTextFacts SpecRead.
#[local] Opaque entity_table.

(** ** Legacy sequences *)

Lemma legacy_match_some s p c : legacy_match legacy_table s = Some (p, c) -> In (p, c) legacy_pairs /\ exists r, s = p ++ r.
Proof.
  assert (K : forall t, legacy_match t s = Some (p, c) -> In (p, c) t /\ exists r, s = p ++ r).
  { induction t as [|[q r] t IH]; cbn [legacy_match]; [discriminate|]. destruct (has_prefix q s) eqn:E.
    - intros [= -> ->]. apply has_prefix_spec in E. split; [now left|exact E].
    - intros H. apply IH in H. destruct H as [H1 H2]. split; [now right|exact H2]. }
  exact (K legacy_table).
Qed.
Lemma legacy_match_app p c s : In (p, c) legacy_pairs -> legacy_match legacy_table (p ++ s) = Some (p, c).
Proof. intros H. cbn in H. repeat (destruct H as [H|H]; [injection H as <- <-; reflexivity|]). destruct H. Qed.
Lemma legacy_match_not s : (forall p, In p legacy_seqs -> ~ starts_with p s) <-> legacy_match legacy_table s = None.
Proof.
  rewrite legacy_match_none. split; intros H p Hp.
  - destruct (has_prefix p s) eqn:E; [|reflexivity]. apply has_prefix_spec in E. destruct (H p Hp E).
  - intros E. apply has_prefix_spec in E. rewrite (H p Hp) in E. discriminate.
Qed.
Lemma legacy_fuel_enough : forall f g s, length s <= f -> length s <= g -> legacy_fuel f s = legacy_fuel g s.
Proof.
  induction f as [|f IH]; intros [|g] s Hf Hg; [reflexivity| | |].
  - destruct s; [reflexivity|cbn in Hf; lia].
  - destruct s; [reflexivity|cbn in Hg; lia].
  - cbn [legacy_fuel]. destruct (legacy_match legacy_table s) as [[p c]|] eqn:E.
    + f_equal. assert (1 <= length p) by (apply legacy_match_some in E; destruct E as [E _]; cbn in E; repeat (destruct E as [E|E]; [injection E as <- _; cbn; lia|]); destruct E).
      apply IH; rewrite skipn_length; lia.
    + destruct s as [|c t]; [reflexivity|]. cbn in Hf, Hg. f_equal. apply IH; lia.
Qed.
Lemma legacy_unescape_seq p c s : In (p, c) legacy_pairs -> legacy_unescape (p ++ s) = c :: legacy_unescape s.
Proof.
  intros H. unfold legacy_unescape. assert (L : 1 <= length p) by (cbn in H; repeat (destruct H as [H|H]; [injection H as <- _; cbn; lia|]); destruct H).
  rewrite app_length. destruct (length p + length s) as [|f] eqn:F; [lia|]. cbn [legacy_fuel]. rewrite (legacy_match_app _ _ _ H).
  rewrite skipn_app_exact. f_equal. apply legacy_fuel_enough; lia.
Qed.
Lemma legacy_unescape_byte c s : (forall p, In p legacy_seqs -> ~ starts_with p (c :: s)) -> legacy_unescape (c :: s) = c :: legacy_unescape s.
Proof. intros H. apply legacy_match_not in H. unfold legacy_unescape. cbn [length legacy_fuel]. rewrite H. reflexivity. Qed.

Lemma legacy_read_iff s t : legacy_read s t <-> t = legacy_unescape s.
Proof.
  split.
  - induction 1 as [|p c s t H _ IH|c s t H _ IH]; [reflexivity| |].
    + rewrite (legacy_unescape_seq _ _ _ H), IH. reflexivity.
    + rewrite (legacy_unescape_byte _ _ H), IH. reflexivity.
  - intros ->. remember (length s) as n eqn:Hn. assert (L : length s <= n) by lia. clear Hn. revert s L.
    induction n as [|n IH]; intros s L.
    + destruct s; [constructor|cbn in L; lia].
    + destruct (legacy_match legacy_table s) as [[p c]|] eqn:E.
      * apply legacy_match_some in E. destruct E as (H & r & ->). rewrite (legacy_unescape_seq _ _ _ H). constructor; [exact H|].
        apply IH. rewrite app_length in L. assert (1 <= length p) by (cbn in H; repeat (destruct H as [H|H]; [injection H as <- _; cbn; lia|]); destruct H). lia.
      * destruct s as [|c s]; [constructor|]. pose proof (proj2 (legacy_match_not _) E) as N. rewrite (legacy_unescape_byte _ _ N). constructor; [exact N|]. apply IH. cbn in L. lia.
Qed.

(** ** Maximal runs *)

Section Run.
Variable P : byte -> Prop.
Hypothesis Hsemi : ~ P ";"%byte.
Lemma run_unique d e r d' e' r' : Forall P d -> Forall P d' -> run_end P e r -> run_end P e' r' ->
  d ++ e ++ r = d' ++ e' ++ r' -> d = d' /\ e = e' /\ r = r'.
Proof.
  assert (N : forall c (d : bytes) e r l, P c -> run_end P e r -> e ++ r = (c :: l) -> False).
  { intros c _ e0 r0 l Hc [->|[-> He]] E.
    - injection E as <- _. contradiction.
    - cbn in E. subst r0. tauto. }
  intros H. revert d'. induction H as [|c d Hc Hd IH]; intros [|c' d'] H' He He' E; cbn [app] in E.
  - split; [reflexivity|]. destruct He as [->|[-> He]], He' as [->|[-> He']]; cbn in E.
    + injection E as ->. auto.
    + subst r'. tauto.
    + subst r. tauto.
    + subst. auto.
  - exfalso. inversion H'; subst. eapply (N c' []); [eassumption|exact He|exact E].
  - exfalso. symmetry in E. eapply (N c []); [eassumption|exact He'|exact E].
  - injection E as <- E. inversion H'; subst. destruct (IH d' ltac:(assumption) He He' E) as (-> & -> & ->). auto.
Qed.
End Run.

Lemma digit_semi : ~ digit_char ";"%byte. Proof. unfold digit_char. cbn. lia. Qed.
Lemma hex_semi : ~ exists v, hex_char ";"%byte v. Proof. intros (v & H). unfold hex_char in H. cbn in H. lia. Qed.
Lemma name_semi : ~ name_char ";"%byte. Proof. unfold name_char. cbn. lia. Qed.

(** ** Numbers *)

Definition class (hex : bool) (c : byte) : Prop := if hex then exists v, hex_char c v else digit_char c.
Lemma entity_digit_dec c d : entity_digit false c = Some d <-> digit_char c /\ d = Z.of_N (b2n c - 48).
Proof.
  unfold entity_digit, is_dec, digit_char. destruct ((48 <=? b2n c)%N && (b2n c <=? 57)%N) eqn:E.
  - rewrite andb_true_iff, !N.leb_le in E. split; [intros [= <-]; lia|intros [_ ->]; f_equal; lia].
  - split; [discriminate|]. intros [H _]. assert ((48 <=? b2n c)%N && (b2n c <=? 57)%N = true) by (rewrite andb_true_iff, !N.leb_le; lia). congruence.
Qed.
Lemma entity_digit_hex c d : entity_digit true c = Some d <-> exists v, hex_char c v /\ d = Z.of_N v.
Proof.
  unfold entity_digit, is_dec, hex_char. destruct ((48 <=? b2n c)%N && (b2n c <=? 57)%N) eqn:E.
  - rewrite andb_true_iff, !N.leb_le in E. split; [intros [= <-]; exists (b2n c - 48)%N; lia|intros (v & H & ->); f_equal; lia].
  - rewrite andb_false_iff, !N.leb_gt in E. destruct ((97 <=? Z.of_N (b2n c))%Z && (Z.of_N (b2n c) <=? 102)%Z) eqn:E2.
    + rewrite andb_true_iff, !Z.leb_le in E2. split; [intros [= <-]; exists (b2n c - 87)%N; lia|intros (v & H & ->); f_equal; lia].
    + rewrite andb_false_iff, !Z.leb_gt in E2. destruct ((65 <=? Z.of_N (b2n c))%Z && (Z.of_N (b2n c) <=? 70)%Z) eqn:E3.
      * rewrite andb_true_iff, !Z.leb_le in E3. split; [intros [= <-]; exists (b2n c - 55)%N; lia|intros (v & H & ->); f_equal; lia].
      * rewrite andb_false_iff, !Z.leb_gt in E3. split; [discriminate|]. intros (v & H & _). exfalso. lia.
Qed.
Lemma entity_digit_class hex c : class hex c <-> exists d, entity_digit hex c = Some d.
Proof.
  destruct hex; cbn [class].
  - split; [intros (v & H); exists (Z.of_N v); apply entity_digit_hex; eauto|intros (d & H); apply entity_digit_hex in H; destruct H as (v & H & _); eauto].
  - split; [intros H; eexists; apply entity_digit_dec; eauto|intros (d & H); apply entity_digit_dec in H; tauto].
Qed.

Lemma wrap32_mod z : (wrap32 z mod 2 ^ 32 = z mod 2 ^ 32)%Z.
Proof.
  unfold wrap32. change 4294967296%Z with (2 ^ 32)%Z. destruct (z mod 2 ^ 32 <? 2147483648)%Z.
  - apply Z.mod_mod. lia.
  - rewrite <- (Z_mod_plus_full (z mod 2 ^ 32 - 2 ^ 32) 1 (2 ^ 32)). replace (z mod 2 ^ 32 - 2 ^ 32 + 1 * 2 ^ 32)%Z with (z mod 2 ^ 32)%Z by lia. apply Z.mod_mod. lia.
Qed.
Lemma wrap32_step b z d : wrap32 (b * wrap32 z + d) = wrap32 (b * z + d).
Proof.
  assert (E : forall x y, (x mod 2 ^ 32 = y mod 2 ^ 32)%Z -> wrap32 x = wrap32 y) by (intros x y E; unfold wrap32; change 4294967296%Z with (2 ^ 32)%Z; rewrite E; reflexivity).
  apply E. rewrite Z.add_mod, Z.mul_mod, wrap32_mod, <- Z.mul_mod, <- Z.add_mod by lia. reflexivity.
Qed.
Lemma signed32_wrap v : signed32 v = wrap32 (Z.of_N v).
Proof. reflexivity. Qed.

Definition base (hex : bool) : Z := if hex then 16 else 10.
Fixpoint accum (hex : bool) (x : Z) (d : bytes) : Z :=
  match d with
  | [] => x
  | c :: t => match entity_digit hex c with Some v => accum hex (base hex * x + v) t | None => x end
  end.
Lemma num_loop_run hex : forall t x i, exists d e rest, t = d ++ e ++ rest /\ Forall (class hex) d /\ run_end (class hex) e rest /\
  num_loop hex (wrap32 x) i t = (wrap32 (accum hex x d), i + length (d ++ e)).
Proof.
  induction t as [|c t IH]; intros x i.
  - exists [], [], []. repeat split; [constructor|right; split; [reflexivity|exact I]|cbn; f_equal; lia].
  - cbn [num_loop]. destruct (entity_digit hex c) as [v|] eqn:E.
    + destruct (IH (base hex * x + v)%Z (S i)) as (d & e & rest & -> & Hd & He & EQ). exists (c :: d), e, rest. split; [reflexivity|].
      split; [constructor; [apply entity_digit_class; eauto|exact Hd]|]. split; [exact He|]. cbn [accum]. rewrite E.
      change (if hex then 16%Z else 10%Z) with (base hex). rewrite wrap32_step, EQ. f_equal. cbn [app length]. lia.
    + assert (Nc : ~ class hex c) by (intros H; apply entity_digit_class in H; destruct H as (d & H); congruence).
      destruct (beq_spec c ";") as [->|Hc].
      * exists [], (B ";"), t. repeat split; [constructor|left; reflexivity|cbn; f_equal; lia].
      * exists [], [], (c :: t). repeat split; [constructor|right; split; [reflexivity|split; assumption]|cbn; f_equal; lia].
Qed.
Lemma accum_dec : forall d a, Forall digit_char d -> accum false (Z.of_N a) d = Z.of_N (fold_left (fun a c => 10 * a + (b2n c - 48))%N d a).
Proof.
  induction d as [|c d IH]; intros a H; cbn [accum fold_left]; [reflexivity|]. inversion H as [|? ? Hc Hd]; subst.
  rewrite (proj2 (entity_digit_dec c _) (conj Hc eq_refl)). rewrite <- IH by exact Hd. f_equal. unfold base. lia.
Qed.
Lemma accum_hex : forall d vs a, Forall2 hex_char d vs -> accum true (Z.of_N a) d = Z.of_N (fold_left (fun a v => 16 * a + v)%N vs a).
Proof.
  intros d vs a H. revert a. induction H as [|c v d vs Hc Hd IH]; intros a; cbn [accum fold_left]; [reflexivity|].
  rewrite (proj2 (entity_digit_hex c (Z.of_N v)) ltac:(eauto)). rewrite <- IH. f_equal. unfold base. lia.
Qed.
Lemma hex_values d : Forall (class true) d -> exists vs, Forall2 hex_char d vs.
Proof. induction 1 as [|c d [v Hc] Hd (vs & IH)]; [exists []; constructor|exists (v :: vs); constructor; assumption]. Qed.
Lemma hex_class d vs : Forall2 hex_char d vs -> Forall (class true) d.
Proof. induction 1; constructor; [cbn; eauto|assumption]. Qed.

Definition rune_of (z : Z) : N := if (numeric_rune z <? 0)%Z then 0xFFFD%N else Z.to_N (numeric_rune z).
Lemma windows_same : windows_1252 = replacement_table. Proof. reflexivity. Qed.
Lemma ref_char_iff z r : ref_char z r <-> r = rune_of z.
Proof.
  unfold rune_of, numeric_rune. destruct ((128 <=? z) && (z <=? 159))%Z%bool eqn:W.
  - rewrite andb_true_iff, !Z.leb_le in W.
    assert (L : (Z.to_nat (z - 128) < length windows_1252)%nat) by (change (length windows_1252) with 32%nat; lia).
    rewrite <- windows_same. pose proof (nth_error_nth' windows_1252 0%N L) as E.
    assert (Hn : (Z.of_N (nth (Z.to_nat (z - 128)) windows_1252 0%N) <? 0)%Z = false) by (apply Z.ltb_ge; lia). rewrite Hn, N2Z.id.
    split.
    + intros [r' H E'|H|H]; [congruence|lia|lia].
    + intros ->. apply rc_windows; [exact W|exact E].
  - rewrite andb_false_iff, !Z.leb_gt in W.
    destruct ((z =? 0) || ((55296 <=? z) && (z <=? 57343)) || (1114111 <? z))%Z%bool eqn:V.
    + rewrite !orb_true_iff, andb_true_iff, !Z.leb_le, Z.eqb_eq, Z.ltb_lt in V. change (r = 65533%N) with (r = 65533%N).
      split; [intros [r' H E'|H|H]; [lia|reflexivity|lia]|intros ->; apply rc_invalid; lia].
    + rewrite !orb_false_iff, andb_false_iff, !Z.leb_gt, Z.eqb_neq, Z.ltb_ge in V.
      destruct (z <? 0)%Z eqn:Z0.
      * apply Z.ltb_lt in Z0. split; [intros [r' H E'|H|H]; [lia|reflexivity|lia]|intros ->; apply rc_invalid; lia].
      * apply Z.ltb_ge in Z0. split; [intros [r' H E'|H|H]; [lia|lia|reflexivity]|intros ->; apply rc_scalar; lia].
Qed.
Lemma windows_scalar : forallb is_scalar windows_1252 = true. Proof. reflexivity. Qed.
Lemma rune_of_encode z : encode_rune_z (numeric_rune z) = utf8_of (rune_of z).
Proof.
  assert (S : is_scalar (rune_of z) = true).
  { pose proof (proj2 (ref_char_iff z _) eq_refl) as H. destruct H as [r H E|H|H]; [|reflexivity|].
    - apply nth_error_In in E. pose proof windows_scalar as W. rewrite forallb_forall in W. apply W. exact E.
    - apply scalar_iff. unfold scalar. lia. }
  rewrite utf8_of_eq. unfold encode_rune_z, rune_of in *. destruct (numeric_rune z <? 0)%Z; [reflexivity|]. unfold encode_rune. rewrite S. reflexivity.
Qed.

(** ** Names *)

Lemma name_class c : (is_alpha c || is_dec c)%bool = true <-> name_char c.
Proof. unfold is_alpha, is_dec, name_char. rewrite !orb_true_iff, !andb_true_iff, !N.leb_le. lia. Qed.
Lemma name_loop_run : forall t i, exists w e rest, t = w ++ e ++ rest /\ Forall name_char w /\ run_end name_char e rest /\
  name_loop i t = i + length (w ++ e).
Proof.
  induction t as [|c t IH]; intros i.
  - exists [], [], []. repeat split; [constructor|right; split; [reflexivity|exact I]|cbn; lia].
  - cbn [name_loop]. destruct (is_alpha c || is_dec c)%bool eqn:E.
    + destruct (IH (S i)) as (w & e & rest & -> & Hw & He & EQ). exists (c :: w), e, rest. split; [reflexivity|].
      split; [constructor; [apply name_class, E|exact Hw]|]. split; [exact He|]. rewrite EQ. cbn [app length]. lia.
    + assert (Nc : ~ name_char c) by (intros H; apply name_class in H; congruence).
      destruct (beq_spec c ";") as [->|Hc].
      * exists [], (B ";"), t. repeat split; [constructor|left; reflexivity|cbn; lia].
      * exists [], [], (c :: t). repeat split; [constructor|right; split; [reflexivity|split; assumption]|cbn; lia].
Qed.

(** Every name occurs once in the table, is not empty, and stands for one or two characters. *)
#[local] Transparent entity_table.
Definition entry_ok (kv : bytes * list N) : bool :=
  match assoc (fst kv) entity_table with
  | Some l => (Nat.eqb (length l) (length (snd kv)) && forallb (fun p => N.eqb (fst p) (snd p)) (combine l (snd kv)))%bool
  | None => false
  end && match fst kv with [] => false | _ => true end &&
  match snd kv with [x] | [x; _] => true | _ => false end && forallb is_scalar (snd kv).
Lemma table_ok : forallb entry_ok entity_table = true. Proof. vm_cast_no_check (eq_refl true). Qed.
#[local] Opaque entity_table.
Lemma combine_eq : forall l m, length l = length m -> forallb (fun p : N * N => N.eqb (fst p) (snd p)) (combine l m) = true -> l = m.
Proof.
  induction l as [|x l IH]; intros [|y m] L H; try discriminate; [reflexivity|]. cbn in L, H. rewrite andb_true_iff, N.eqb_eq in H. destruct H as [-> H].
  f_equal. apply IH; [lia|exact H].
Qed.
Lemma table_entry k cs : In (k, cs) entity_table -> assoc k entity_table = Some cs /\ k <> [] /\ forallb is_scalar cs = true /\
  ((exists x, cs = [x]) \/ exists x y, cs = [x; y]).
Proof.
  intros H. pose proof table_ok as T. rewrite forallb_forall in T. specialize (T _ H). unfold entry_ok in T. cbn [fst snd] in T.
  rewrite !andb_true_iff in T. destruct T as (((T1 & T2) & T3) & T4).
  destruct (assoc k entity_table) as [l|]; [|discriminate]. rewrite andb_true_iff in T1. destruct T1 as [T1 T1']. apply Nat.eqb_eq in T1.
  rewrite (combine_eq _ _ T1 T1'). split; [reflexivity|]. split; [destruct k; [discriminate|discriminate]|]. split; [exact T4|].
  destruct cs as [|x [|y [|z cs]]]; try discriminate; eauto.
Qed.
Lemma assoc_in {A} k (l : list (bytes * A)) v : assoc k l = Some v -> In (k, v) l.
Proof.
  induction l as [|[k' v'] l IH]; cbn [assoc]; [discriminate|]. destruct (bytes_eqb_spec k k') as [->|N]; [intros [= ->]; now left|]. intros H. right. apply IH, H.
Qed.
Lemma entity1_iff k x : entity1 k = Some x <-> In (k, [x]) entity_table.
Proof.
  unfold entity1. split.
  - destruct (assoc k entity_table) as [[|a [|b l]]|] eqn:E; try discriminate. intros [= ->]. apply assoc_in. exact E.
  - intros H. apply table_entry in H. destruct H as [-> _]. reflexivity.
Qed.
Lemma entity2_iff k x y : entity2 k = Some (x, y) <-> In (k, [x; y]) entity_table.
Proof.
  unfold entity2. split.
  - destruct (assoc k entity_table) as [[|a [|b [|c l]]]|] eqn:E; try discriminate. intros [= -> ->]. apply assoc_in. exact E.
  - intros H. apply table_entry in H. destruct H as [-> _]. reflexivity.
Qed.
Lemma entity_none k : entity1 k = None -> entity2 k = None -> forall cs, ~ In (k, cs) entity_table.
Proof.
  intros H1 H2 cs H. pose proof (table_entry _ _ H) as (E & _ & _ & [(x & ->)|(x & y & ->)]).
  - apply entity1_iff in H. congruence.
  - apply entity2_iff in H. congruence.
Qed.
Lemma entity1_encode k x : entity1 k = Some x -> encode_rune x = utf8_of x.
Proof. intros H. apply entity1_iff in H. apply table_entry in H. destruct H as (_ & _ & H & _). cbn in H. rewrite andb_true_r in H. unfold encode_rune. rewrite H. symmetry. apply utf8_of_eq. Qed.
Lemma entity2_encode k x y : entity2 k = Some (x, y) -> encode_rune x = utf8_of x /\ encode_rune y = utf8_of y.
Proof.
  intros H. apply entity2_iff in H. apply table_entry in H. destruct H as (_ & _ & H & _). cbn in H. rewrite andb_true_r, andb_true_iff in H. destruct H as [H1 H2].
  unfold encode_rune. rewrite H1, H2. split; symmetry; apply utf8_of_eq.
Qed.
#[local] Opaque entity1 entity2.

Lemma prefix_entity_some name : forall j r, prefix_entity j name = Some r -> exists x k, r = (encode_rune x, S k) /\ 2 <= k <= j /\
  entity1 (firstn k name) = Some x /\ forall k', k < k' <= j -> entity1 (firstn k' name) = None.
Proof.
  induction j as [|j IH]; intros r H; [discriminate|]. rewrite prefix_entity_S in H. destruct j as [|j]; [discriminate|].
  destruct (entity1 (firstn (S (S j)) name)) as [x|] eqn:E.
  - injection H as <-. exists x, (S (S j)). split; [reflexivity|]. split; [lia|]. split; [exact E|]. intros. lia.
  - destruct (IH r H) as (x & k & -> & Hk & Hx & Hm). exists x, k. split; [reflexivity|]. split; [lia|]. split; [exact Hx|].
    intros k' Hk'. destruct (Nat.eq_dec k' (S (S j))) as [->|Hne]; [exact E|]. apply Hm. lia.
Qed.
Lemma prefix_entity_none name : forall j, prefix_entity j name = None -> forall k, 2 <= k <= j -> entity1 (firstn k name) = None.
Proof.
  induction j as [|j IH]; intros H k Hk; [lia|]. rewrite prefix_entity_S in H. destruct j as [|j]; [lia|].
  destruct (entity1 (firstn (S (S j)) name)) as [x|] eqn:E; [discriminate|]. destruct (Nat.eq_dec k (S (S j))) as [->|Hne]; [exact E|]. apply IH; [exact H|lia].
Qed.

(** ** One reference *)

Definition hexes (t : bytes) : bool := match t with c :: _ => (beq c "x" || beq c "X")%bool | [] => false end.
Definition body (t : bytes) : bytes := if hexes t then tl t else t.
Definition start (t : bytes) : nat := if hexes t then 3 else 2.
Lemma class_semi hex : ~ class hex ";"%byte. Proof. destruct hex; [exact hex_semi|exact digit_semi]. Qed.
Lemma num_entity t d e rest : body t = d ++ e ++ rest -> Forall (class (hexes t)) d -> run_end (class (hexes t)) e rest ->
  unescape_entity ("&"%byte :: "#"%byte :: t) =
  if (start t + length (d ++ e) <=? 3)%nat then (B "&", 1)
  else (utf8_of (rune_of (wrap32 (accum (hexes t) 0 d))), start t + length (d ++ e)).
Proof.
  intros E Hd He. unfold unescape_entity. cbn [length nth]. change (S (S (length t)) <=? 1)%nat with false. cbv iota. change (beq "#" "#") with true. cbv iota.
  destruct (S (S (length t)) <=? 3)%nat eqn:L.
  - apply Nat.leb_le in L. assert (H : (start t + length (d ++ e) <= 3)%nat).
    { assert (length (d ++ e) <= length (body t)) by (rewrite E, !app_length; lia). unfold body, start in *. destruct t as [|c t]; cbn in *; [lia|]. destruct (beq c "x" || beq c "X")%bool; cbn in *; lia. }
    apply Nat.leb_le in H. rewrite H. reflexivity.
  - destruct t as [|c t]; [discriminate L|]. cbn [nth]. change (beq c "x" || beq c "X")%bool with (hexes (c :: t)). 
    change (if hexes (c :: t) then 3 else 2) with (start (c :: t)).
    assert (Sk : skipn (start (c :: t)) ("&"%byte :: "#"%byte :: c :: t) = body (c :: t)) by (unfold start, body; destruct (hexes (c :: t)); reflexivity).
    rewrite Sk. destruct (num_loop_run (hexes (c :: t)) (body (c :: t)) 0 (start (c :: t))) as (d' & e' & rest' & E' & Hd' & He' & EQ).
    change (wrap32 0) with 0%Z in EQ. rewrite EQ. rewrite E in E'.
    destruct (run_unique _ (class_semi _) _ _ _ _ _ _ Hd Hd' He He' E') as (<- & <- & <-).
    destruct (start (c :: t) + length (d ++ e) <=? 3)%nat; [reflexivity|]. rewrite rune_of_encode. reflexivity.
Qed.

Lemma name_entity c w e rest : c <> "#"%byte -> Forall name_char w -> run_end name_char e rest -> forall s, s = w ++ e ++ rest -> hd_error s = Some c ->
  unescape_entity ("&"%byte :: s) =
  match w ++ e with
  | [] => (B "&", 1)
  | n => match entity1 n with
         | Some x => (utf8_of x, S (length n))
         | None => match entity2 n with
                   | Some (x, y) => (utf8_of x ++ utf8_of y, S (length n))
                   | None => match prefix_entity (Nat.min (length n - 1) 6) n with
                             | Some r => r
                             | None => ("&"%byte :: n, S (length n))
                             end
                   end
         end
  end.
Proof.
  intros Hc Hw He s Es Hs. unfold unescape_entity. destruct s as [|c' s']; [discriminate|]. injection Hs as ->.
  cbn [length nth]. change (S (S (length s')) <=? 1)%nat with false. cbv iota. rewrite (proj2 (beq_false c "#") Hc). cbn [skipn].
  destruct (name_loop_run (c :: s') 1) as (w' & e' & rest' & E' & Hw' & He' & EQ). rewrite EQ. rewrite Es in E'.
  destruct (run_unique _ name_semi _ _ _ _ _ _ Hw Hw' He He' E') as (<- & <- & <-).
  replace (1 + length (w ++ e) - 1) with (length (w ++ e)) by lia.
  rewrite Es. rewrite app_assoc, firstn_app_exact. cbn [firstn Nat.add]. rewrite firstn_app_exact. cbv zeta.
  destruct (w ++ e) as [|n0 n] eqn:En; [reflexivity|].
  destruct (entity1 (n0 :: n)) as [x|] eqn:E1; [rewrite (entity1_encode _ _ E1); reflexivity|].
  destruct (entity2 (n0 :: n)) as [[x y]|] eqn:E2; [destruct (entity2_encode _ _ _ E2) as [-> ->]; reflexivity|].
  reflexivity.
Qed.

(** No reference begins without characters. *)
Lemma run_nil_not w e rest s : Forall name_char w -> run_end name_char e rest -> w ++ e <> [] -> s = w ++ e ++ rest -> exists c s', s = c :: s' /\ (name_char c \/ c = ";"%byte).
Proof.
  intros Hw He Hn ->. destruct w as [|c w].
  - destruct He as [->|[-> _]]; [exists ";"%byte, rest; auto|exfalso; apply Hn; reflexivity].
  - inversion Hw; subst. cbn. eauto.
Qed.
Lemma name_not_hash c : name_char c \/ c = ";"%byte -> c <> "#"%byte.
Proof. intros [H| ->] E; [subst; unfold name_char in H; cbn in H; lia|discriminate]. Qed.

Lemma html_ref_hash t cs rest : html_ref ("#"%byte :: t) cs rest ->
  exists d e, body t = d ++ e ++ rest /\ Forall (class (hexes t)) d /\ run_end (class (hexes t)) e rest /\ 4 <= start t + length (d ++ e) /\
    cs = [rune_of (wrap32 (accum (hexes t) 0 d))].
Proof.
  intros H. remember ("#"%byte :: t) as s eqn:Es. destruct H as [d e rest r Hd He Hl Hr|x d vs e rest r Hx Hd He Hl Hr|w e rest cs Hw He Hin|p q e rest r Hw He Hne Hnot Hlp Hp Hmax].
  - injection Es as <-. assert (Hh : hexes (d ++ e ++ rest) = false).
    { destruct d as [|c d]; [destruct He as [->|[-> _]]; [change (2 <= 1) in Hl|change (2 <= 0) in Hl]; lia|]. inversion Hd; subst. cbn. unfold digit_char in *. 
      match goal with H : (48 <= _ <= 57)%N |- _ => rename H into Hcd end.
      destruct (beq_spec c "x") as [->|]; [change (b2n "x") with 120%N in Hcd; lia|]. destruct (beq_spec c "X") as [->|]; [change (b2n "X") with 88%N in Hcd; lia|]. reflexivity. }
    unfold body, start. rewrite Hh. exists d, e. split; [reflexivity|]. split; [exact Hd|]. split; [exact He|]. split; [lia|].
    apply ref_char_iff in Hr. rewrite Hr, signed32_wrap. rewrite (accum_dec d 0%N Hd : accum false 0 d = _). reflexivity.
  - injection Es as <-. cbn [app]. assert (Hh : hexes (x :: d ++ e ++ rest) = true) by (cbn; destruct Hx as [->| ->]; reflexivity).
    unfold body, start. rewrite Hh. cbn [tl]. exists d, e. split; [reflexivity|]. split; [eapply hex_class; exact Hd|]. split; [exact He|]. split; [lia|].
    apply ref_char_iff in Hr. rewrite Hr, signed32_wrap. rewrite (accum_hex d vs 0%N Hd : accum true 0 d = _). reflexivity.
  - exfalso. apply table_entry in Hin. destruct Hin as (_ & Hin & _). destruct (run_nil_not _ _ _ _ Hw He Hin (eq_sym Es)) as (c & s' & E & Hc). injection E as <- _. apply name_not_hash in Hc. congruence.
  - exfalso. destruct p as [|c p]; [cbn in Hlp; lia|]. injection Es as -> _. inversion Hw; subst. apply (name_not_hash "#"%byte); auto.
Qed.
Lemma html_ref_name c s' cs rest : c <> "#"%byte -> html_ref (c :: s') cs rest ->
  exists w e r, c :: s' = w ++ e ++ r /\ Forall name_char w /\ run_end name_char e r /\
   ((In (w ++ e, cs) entity_table /\ rest = r) \/
    (forall cs', ~ In (w ++ e, cs') entity_table) /\ exists p q x, p ++ q = w ++ e /\ q <> [] /\ 2 <= length p <= 6 /\ cs = [x] /\ In (p, [x]) entity_table /\ rest = q ++ r /\
      (forall p' q' r', p' ++ q' = w ++ e -> length p < length p' <= 6 -> q' <> [] -> ~ In (p', [r']) entity_table)).
Proof.
  intros Hc H. remember (c :: s') as s eqn:Es. destruct H as [d e rest r Hd He Hl Hr|x d vs e rest r Hx Hd He Hl Hr|w e rest cs Hw He Hin|p q e rest r Hw He Hne Hnot Hlp Hp Hmax].
  - injection Es as <- _. congruence.
  - injection Es as <- _. congruence.
  - exists w, e, rest. repeat split; auto.
  - exists (p ++ q), e, rest. split; [rewrite <- !app_assoc; reflexivity|]. split; [exact Hw|]. split; [exact He|]. right. rewrite <- !app_assoc. split; [exact Hnot|].
    exists p, (q ++ e), r. rewrite <- !app_assoc. repeat split; try assumption; lia.
Qed.

Lemma skipn_pre {A} (a b : list A) : skipn (length a) (a ++ b) = b. Proof. apply skipn_app_exact. Qed.
Lemma split_at {A} (p q : list A) : firstn (length p) (p ++ q) = p. Proof. apply firstn_app_exact. Qed.

Lemma html_ref_nil cs rest : ~ html_ref [] cs rest.
Proof.
  intros H. remember [] as s eqn:Es. destruct H as [d e rest r Hd He Hl Hr|x d vs e rest r Hx Hd He Hl Hr|w e rest cs Hw He Hin|p q e rest r Hw He Hne Hnot Hlp Hp Hmax]; try discriminate.
  - apply table_entry in Hin. destruct Hin as (_ & Hin & _). apply Hin. apply app_eq_nil in Es. destruct Es as [-> Es]. apply app_eq_nil in Es. destruct Es as [-> _]. reflexivity.
  - destruct p; [cbn in Hlp; lia|discriminate].
Qed.

(** What happens at an ampersand. *)
Lemma entity_cases s :
  (exists cs rest pre, html_ref s cs rest /\ s = pre ++ rest /\ unescape_entity ("&"%byte :: s) = (flat_map utf8_of cs, S (length pre))) \/
  (forall cs rest, ~ html_ref s cs rest) /\ exists pre rest, s = pre ++ rest /\ ~ In "&"%byte pre /\ unescape_entity ("&"%byte :: s) = ("&"%byte :: pre, S (length pre)).
Proof.
  destruct s as [|c s'].
  { right. split.
    - apply html_ref_nil.
    - exists [], []. auto. }
  destruct (beq_spec c "#") as [->|Hc].
  - destruct (num_loop_run (hexes s') (body s') 0 0) as (d & e & rest & E & Hd & He & _).
    pose proof (num_entity s' d e rest E Hd He) as EQ. destruct (start s' + length (d ++ e) <=? 3)%nat eqn:L.
    + apply Nat.leb_le in L. right. split.
      * intros cs rest' H. apply html_ref_hash in H. destruct H as (d' & e' & E' & Hd' & He' & Hl & _). rewrite E in E'.
        destruct (run_unique _ (class_semi _) _ _ _ _ _ _ Hd Hd' He He' E') as (<- & <- & _). lia.
      * exists [], ("#"%byte :: s'). auto.
    + apply Nat.leb_gt in L. left. exists [rune_of (wrap32 (accum (hexes s') 0 d))], rest.
      pose proof (proj2 (ref_char_iff (wrap32 (accum (hexes s') 0 d)) _) eq_refl) as R.
      unfold body, start in *. destruct (hexes s') eqn:Hh.
      * destruct s' as [|x t]; [discriminate|]. cbn [tl] in E. subst t. exists ("#"%byte :: x :: d ++ e). destruct (hex_values d Hd) as (vs & Hv).
        split; [|split; [cbn [app]; rewrite <- app_assoc; reflexivity|rewrite EQ; cbn [flat_map length]; rewrite app_nil_r; f_equal; lia]].
        apply (hr_hexadecimal x d vs e rest); [cbn in Hh; destruct (beq_spec x "x"); [auto|destruct (beq_spec x "X"); [auto|discriminate]]|exact Hv|exact He|lia|].
        rewrite signed32_wrap. rewrite (accum_hex d vs 0%N Hv : accum true 0 d = _) in R. rewrite (accum_hex d vs 0%N Hv : accum true 0 d = _). exact R.
      * subst s'. exists ("#"%byte :: d ++ e). split; [|split; [cbn [app]; rewrite <- app_assoc; reflexivity|rewrite EQ; cbn [flat_map length]; rewrite app_nil_r; f_equal; lia]].
        apply (hr_decimal d e rest); [exact Hd|exact He|lia|]. rewrite signed32_wrap.
        rewrite (accum_dec d 0%N Hd : accum false 0 d = _) in R. rewrite (accum_dec d 0%N Hd : accum false 0 d = _). exact R.
  - destruct (name_loop_run (c :: s') 0) as (w & e & rest & E & Hw & He & _).
    pose proof (name_entity c w e rest Hc Hw He _ E eq_refl) as EQ.
    assert (Uniq : forall w' e' r', c :: s' = w' ++ e' ++ r' -> Forall name_char w' -> run_end name_char e' r' -> w = w' /\ e = e' /\ rest = r').
    { intros w' e' r' E' Hw' He'. rewrite E in E'. apply (run_unique _ name_semi _ _ _ _ _ _ Hw Hw' He He' E'). }
    assert (Amp : ~ In "&"%byte (w ++ e)).
    { intros H. apply in_app_iff in H. destruct H as [H|H].
      - rewrite Forall_forall in Hw. apply Hw in H. unfold name_char in H. change (b2n "&") with 38%N in H. lia.
      - destruct He as [->|[-> _]]; [destruct H as [H|[]]; discriminate|destruct H]. }
    destruct (w ++ e) as [|n0 n] eqn:En.
    { right. split; [|exists [], (c :: s'); auto]. intros cs r H. destruct (html_ref_name c s' cs r Hc H) as (w' & e' & r' & E' & Hw' & He' & K).
      destruct (Uniq _ _ _ E' Hw' He') as (<- & <- & <-). rewrite En in K. destruct K as [[K _]|(_ & p & q & x & K & Kq & Kl & _)].
      - apply table_entry in K. destruct K as (_ & K & _). congruence.
      - apply app_eq_nil in K. destruct K as [-> _]. cbn in Kl. lia. }
    assert (Named : forall cs, In (w ++ e, cs) entity_table -> unescape_entity ("&"%byte :: c :: s') = (flat_map utf8_of cs, S (length (w ++ e))) ->
      exists cs rest pre, html_ref (c :: s') cs rest /\ c :: s' = pre ++ rest /\ unescape_entity ("&"%byte :: c :: s') = (flat_map utf8_of cs, S (length pre))).
    { intros cs Hin EE. exists cs, rest, (w ++ e). split; [rewrite E; apply hr_named; assumption|]. split; [rewrite E, app_assoc; reflexivity|exact EE]. }
    cbv iota in EQ. rewrite <- En in EQ, Amp. clear n0 n En. cbv zeta in EQ.
    destruct (entity1 (w ++ e)) as [x|] eqn:E1.
    { left. apply (Named [x]); [apply entity1_iff, E1|]. rewrite EQ. cbn [flat_map]. rewrite app_nil_r. reflexivity. }
    destruct (entity2 (w ++ e)) as [[x y]|] eqn:E2.
    { left. apply (Named [x; y]); [apply entity2_iff, E2|]. rewrite EQ. cbn [flat_map]. rewrite app_nil_r. reflexivity. }
    pose proof (entity_none _ E1 E2) as Nin.
    destruct (prefix_entity (Nat.min (length (w ++ e) - 1) 6) (w ++ e)) as [r|] eqn:Ep.
    + left. destruct (prefix_entity_some _ _ _ Ep) as (x & k & -> & Hk & Hx & Hmax). set (nm := w ++ e) in *.
      assert (Ek : firstn k nm ++ skipn k nm = nm) by apply firstn_skipn.
      assert (Lk : length (firstn k nm) = k) by (rewrite firstn_length; lia).
      exists [x], (skipn k nm ++ rest), (firstn k nm). split; [|split].
      * assert (Esk : exists q, skipn k nm = q ++ e /\ firstn k nm ++ q = w).
        { unfold nm. rewrite skipn_app. exists (skipn k w). assert (Le : length e <= 1) by (destruct He as [->|[-> _]]; cbn; lia).
          assert (Lw : k <= length w) by (unfold nm in Hk; rewrite app_length in Hk; lia).
          replace (k - length w) with 0 by lia. split; [reflexivity|]. rewrite firstn_app. replace (k - length w) with 0 by lia. cbn [firstn]. rewrite app_nil_r. apply firstn_skipn. }
        destruct Esk as (q & Eq & Ew). rewrite Eq. rewrite <- app_assoc.
        replace (c :: s') with (firstn k nm ++ q ++ e ++ rest) by (rewrite E, app_assoc, Ew; reflexivity).
        apply hr_prefix.
        -- rewrite Ew. exact Hw.
        -- exact He.
        -- intros Z. rewrite <- Eq in Z. assert (L0 : length (skipn k nm) = 0) by (rewrite Z; reflexivity). rewrite skipn_length in L0. lia.
        -- intros cs. rewrite app_assoc, Ew. apply Nin.
        -- lia.
        -- apply entity1_iff, Hx.
        -- intros p' q' r' Ep' Hl Hq Hin. rewrite app_assoc, Ew in Ep'. fold nm in Ep'. apply entity1_iff in Hin.
           assert (Fp : firstn (length p') nm = p') by (rewrite <- Ep'; apply split_at).
           assert (Lq : length p' < length nm) by (rewrite <- Ep', app_length; destruct q'; [congruence|cbn; lia]).
           specialize (Hmax (length p')). rewrite Fp in Hmax. rewrite Hmax in Hin by lia. discriminate.
      * rewrite app_assoc, Ek. rewrite E. unfold nm. rewrite app_assoc. reflexivity.
      * rewrite EQ, Lk. cbn [flat_map]. rewrite app_nil_r. rewrite (entity1_encode _ _ Hx). reflexivity.
    + right. split.
      * intros cs r H. destruct (html_ref_name c s' cs r Hc H) as (w' & e' & r' & E' & Hw' & He' & K).
        destruct (Uniq _ _ _ E' Hw' He') as (<- & <- & <-). destruct K as [[K _]|(_ & p & q & x & K & Kq & Kl & _ & Kin & _)]; [exact (Nin _ K)|].
        apply entity1_iff in Kin. assert (Lq : length p < length (w ++ e)) by (rewrite <- K, app_length; destruct q; [congruence|cbn; lia]).
        pose proof (prefix_entity_none _ _ Ep (length p) ltac:(lia)) as N. rewrite <- K, split_at in N. congruence.
      * exists (w ++ e), rest. split; [rewrite E, app_assoc; reflexivity|]. split; [exact Amp|exact EQ].
Qed.

Lemma html_ref_det s cs rest cs' rest' : html_ref s cs rest -> html_ref s cs' rest' -> cs = cs' /\ rest = rest'.
Proof.
  intros H H'. destruct s as [|c s].
  - destruct (html_ref_nil _ _ H).
  - destruct (beq_spec c "#") as [->|Hc].
    + apply html_ref_hash in H, H'. destruct H as (d & e & E & Hd & He & _ & ->), H' as (d' & e' & E' & Hd' & He' & _ & ->). rewrite E in E'.
      destruct (run_unique _ (class_semi _) _ _ _ _ _ _ Hd Hd' He He' E') as (<- & <- & <-). auto.
    + destruct (html_ref_name _ _ _ _ Hc H) as (w & e & r & E & Hw & He & K), (html_ref_name _ _ _ _ Hc H') as (w' & e' & r' & E' & Hw' & He' & K').
      rewrite E in E'. destruct (run_unique _ name_semi _ _ _ _ _ _ Hw Hw' He He' E') as (<- & <- & <-).
      destruct K as [[K ->]|(Kn & p & q & x & K1 & K2 & K3 & -> & K4 & -> & K5)], K' as [[K' ->]|(Kn' & p' & q' & x' & K1' & K2' & K3' & -> & K4' & -> & K5')].
      * apply table_entry in K, K'. destruct K as [K _], K' as [K' _]. rewrite K in K'. injection K' as ->. auto.
      * destruct (Kn' _ K).
      * destruct (Kn _ K').
      * assert (L : length p = length p').
        { destruct (Nat.lt_trichotomy (length p) (length p')) as [L|[L|L]]; [|exact L|]; exfalso.
          - apply (K5 p' q' x' K1'); [lia|exact K2'|exact K4'].
          - apply (K5' p q x K1); [lia|exact K2|exact K4]. }
        assert (p = p') as <- by (rewrite <- (split_at p q), <- (split_at p' q'), K1, K1', L; reflexivity).
        assert (q = q') as <- by (apply (app_inv_head p); congruence).
        apply table_entry in K4, K4'. destruct K4 as [K4 _], K4' as [K4' _]. rewrite K4 in K4'. injection K4' as ->. auto.
Qed.

Lemma html_unescape_plain pre rest : ~ In "&"%byte pre -> html_unescape (pre ++ rest) = pre ++ html_unescape rest.
Proof. induction pre as [|c pre IH]; intros H; [reflexivity|]. cbn [app]. rewrite html_unescape_other by (intros ->; apply H; now left). rewrite IH by (intros K; apply H; now right). reflexivity. Qed.

Lemma html_read_iff s t : html_read s t <-> t = html_unescape s.
Proof.
  split.
  - induction 1 as [|c s t Hc _ IH|s cs rest t H _ IH|s t H _ IH].
    + reflexivity.
    + rewrite html_unescape_other, IH by exact Hc. reflexivity.
    + rewrite html_unescape_amp. destruct (entity_cases s) as [(cs' & rest' & pre & H' & E & U)|[N _]]; [|destruct (N _ _ H)].
      destruct (html_ref_det _ _ _ _ _ H H') as [<- <-]. rewrite U. cbn [fst snd]. rewrite E at 1. cbn [skipn]. rewrite skipn_pre, IH. reflexivity.
    + rewrite html_unescape_amp. destruct (entity_cases s) as [(cs' & rest' & pre & H' & E & U)|[_ (pre & rest & E & A & U)]]; [destruct (H _ _ H')|].
      rewrite U. cbn [fst snd]. rewrite E at 1. cbn [skipn]. rewrite skipn_pre, IH, E, html_unescape_plain by exact A. reflexivity.
  - intros ->. remember (length s) as n eqn:Hn. assert (L : length s <= n) by lia. clear Hn. revert s L.
    induction n as [|n IH]; intros s L.
    + destruct s; [constructor|cbn in L; lia].
    + destruct s as [|c s]; [constructor|]. cbn in L. destruct (beq_spec c "&") as [->|Hc].
      * rewrite html_unescape_amp. destruct (entity_cases s) as [(cs' & rest' & pre & H' & E & U)|[N (pre & rest & E & A & U)]].
        -- rewrite U. cbn [fst snd]. rewrite E at 2. cbn [skipn]. rewrite skipn_pre. apply (hd_ref s cs' rest'); [exact H'|].
           apply IH. rewrite E, app_length in L. lia.
        -- rewrite U. cbn [fst snd]. rewrite E at 2. cbn [skipn]. rewrite skipn_pre. cbn [app]. apply hd_amp; [exact N|].
           rewrite <- html_unescape_plain, <- E by exact A. apply IH. lia.
      * rewrite html_unescape_other by exact Hc. constructor; [exact Hc|]. apply IH. lia.
Qed.

(** ** Both together *)
Lemma legacy_no_amp s : ~ In "&"%byte s -> ~ In "&"%byte (legacy_unescape s).
Proof.
  intros H. pose proof (proj2 (legacy_read_iff s _) eq_refl) as R. revert H. induction R as [|p c s t Hp R IH|c s t Hn R IH]; intros H.
  - auto.
  - intros [E|K]; [subst c; cbn in Hp; repeat (destruct Hp as [Hp|Hp]; [discriminate Hp|]); destruct Hp|]. revert K. apply IH. intros K. apply H. apply in_app_iff. now right.
  - intros [->|K]; [apply H; now left|]. revert K. apply IH. intros K. apply H. now right.
Qed.
Lemma unescaped_iff raw u : unescaped raw u <-> u = unescape_bytes raw.
Proof.
  assert (K : unescape_bytes raw = html_unescape (legacy_unescape raw)).
  { unfold unescape_bytes. destruct (contains_byte "&" raw) eqn:A.
    - cbn [negb andb]. destruct (index (B "/%DCN") raw) as [i|] eqn:I; [reflexivity|].
      apply index_none in I. rewrite (legacy_unescape_id raw (no_dcn_no_legacy raw I)). reflexivity.
    - apply contains_byte_false in A. destruct (index (B "/%DCN") raw) as [i|] eqn:I; cbn [negb andb].
      + rewrite html_unescape_id; [reflexivity|]. apply legacy_no_amp, A.
      + apply index_none in I. rewrite (legacy_unescape_id raw (no_dcn_no_legacy raw I)), html_unescape_id by exact A. reflexivity. }
  rewrite K. unfold unescaped. split.
  - intros (v & H1 & H2). apply legacy_read_iff in H1. apply html_read_iff in H2. subst. reflexivity.
  - intros ->. exists (legacy_unescape raw). split; [apply legacy_read_iff; reflexivity|apply html_read_iff; reflexivity].
Qed.
