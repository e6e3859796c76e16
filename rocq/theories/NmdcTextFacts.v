(** Lemmas about NMDC text values. *)
From Verif Require Import Base BaseFacts Utf8 Utf8Facts Html HtmlFacts NmdcText SpecText.

Definition esc_name (w : bytes) : bytes := flat_map esc_char_name w.
Definition esc_string (w : bytes) : bytes := flat_map esc_char_string w.

(** ** Character classes of escaped text *)

Lemma esc_char_string_cases c :
  esc_char_string c = [c] /\ c <> "&"%byte /\ c <> "$"%byte /\ c <> "|"%byte \/
  c = "&"%byte /\ esc_char_string c = B "&amp;" \/
  c = "$"%byte /\ esc_char_string c = B "&#36;" \/
  c = "|"%byte /\ esc_char_string c = B "&#124;".
Proof.
  unfold esc_char_string, delimiter.
  destruct (beq_spec c "&") as [->|]; [tauto|].
  destruct (beq_spec c "$") as [->|]; [tauto|].
  destruct (beq_spec c "|") as [->|]; [tauto|]. tauto.
Qed.

Lemma esc_char_name_cases c :
  esc_char_name c = [c] /\ c <> "&"%byte /\ c <> "<"%byte /\ c <> ">"%byte /\ c <> "$"%byte /\ c <> "|"%byte \/
  c = "&"%byte /\ esc_char_name c = B "&amp;" \/
  c = "<"%byte /\ esc_char_name c = B "&lt;" \/
  c = ">"%byte /\ esc_char_name c = B "&gt;" \/
  c = "$"%byte /\ esc_char_name c = B "&#36;" \/
  c = "|"%byte /\ esc_char_name c = B "&#124;".
Proof.
  unfold esc_char_name, delimiter.
  destruct (beq_spec c "&") as [->|]; [tauto|].
  destruct (beq_spec c "<") as [->|]; [tauto|].
  destruct (beq_spec c ">") as [->|]; [tauto|].
  destruct (beq_spec c "$") as [->|]; [tauto|].
  destruct (beq_spec c "|") as [->|]; [tauto|]. tauto.
Qed.

(** Bytes of the replacement texts. *)
Definition esc_alphabet : bytes := B "&amp;lt;gt;#36;#124;".

Lemma in_esc_string x w : In x (esc_string w) -> In x w /\ x <> "&"%byte /\ x <> "$"%byte /\ x <> "|"%byte \/ In x esc_alphabet.
Proof.
  unfold esc_string. rewrite in_flat_map. intros (c & Hc & Hx).
  destruct (esc_char_string_cases c) as [(E & H1 & H2 & H3)|[(-> & E)|[(-> & E)|(-> & E)]]]; rewrite E in Hx.
  - left. destruct Hx as [<-|[]]. tauto.
  - right. cbn in *. tauto.
  - right. cbn in *. tauto.
  - right. cbn in *. tauto.
Qed.

Lemma in_esc_name x w :
  In x (esc_name w) ->
  In x w /\ x <> "&"%byte /\ x <> "<"%byte /\ x <> ">"%byte /\ x <> "$"%byte /\ x <> "|"%byte \/ In x esc_alphabet.
Proof.
  unfold esc_name. rewrite in_flat_map. intros (c & Hc & Hx).
  destruct (esc_char_name_cases c) as [(E & H)|[(-> & E)|[(-> & E)|[(-> & E)|[(-> & E)|(-> & E)]]]]];
    rewrite E in Hx.
  - left. destruct Hx as [<-|[]]. tauto.
  - right. cbn in *. tauto.
  - right. cbn in *. tauto.
  - right. cbn in *. tauto.
  - right. cbn in *. tauto.
  - right. cbn in *. tauto.
Qed.

(** Any byte outside the replacement alphabet survives unchanged. *)
Lemma esc_string_in_iff x w :
  ~ In x esc_alphabet -> x <> "$"%byte -> x <> "|"%byte -> (In x (esc_string w) <-> In x w).
Proof.
  intros H1 H2 H3. split.
  - intros H. apply in_esc_string in H. tauto.
  - intros H. unfold esc_string. rewrite in_flat_map. exists x. split; [exact H|].
    destruct (esc_char_string_cases x) as [(E & _)|[(-> & E)|[(-> & E)|(-> & E)]]].
    + rewrite E. now left.
    + exfalso. apply H1. now left.
    + congruence.
    + congruence.
Qed.

Lemma esc_name_in_iff x w :
  ~ In x esc_alphabet -> x <> "$"%byte -> x <> "|"%byte -> x <> "<"%byte -> x <> ">"%byte ->
  (In x (esc_name w) <-> In x w).
Proof.
  intros H1 H2 H3 H4 H5. split.
  - intros H. apply in_esc_name in H. tauto.
  - intros H. unfold esc_name. rewrite in_flat_map. exists x. split; [exact H|].
    destruct (esc_char_name_cases x) as [(E & _)|[(-> & E)|[(-> & E)|[(-> & E)|[(-> & E)|(-> & E)]]]]]; try congruence.
    + rewrite E. now left.
    + exfalso. apply H1. now left.
Qed.

(** Decide membership in a concrete byte list. *)
Ltac not_in := cbv; intuition congruence.

Lemma esc_string_no_dollar w : ~ In "$"%byte (esc_string w).
Proof. intros H. apply in_esc_string in H as [H|H]; [tauto|]. revert H. not_in. Qed.
Lemma esc_string_no_pipe w : ~ In "|"%byte (esc_string w).
Proof. intros H. apply in_esc_string in H as [H|H]; [tauto|]. revert H. not_in. Qed.
Lemma esc_name_no_dollar w : ~ In "$"%byte (esc_name w).
Proof. intros H. apply in_esc_name in H as [H|H]; [tauto|]. revert H. not_in. Qed.
Lemma esc_name_no_pipe w : ~ In "|"%byte (esc_name w).
Proof. intros H. apply in_esc_name in H as [H|H]; [tauto|]. revert H. not_in. Qed.
Lemma esc_name_no_lt w : ~ In "<"%byte (esc_name w).
Proof. intros H. apply in_esc_name in H as [H|H]; [tauto|]. revert H. not_in. Qed.
Lemma esc_name_no_gt w : ~ In ">"%byte (esc_name w).
Proof. intros H. apply in_esc_name in H as [H|H]; [tauto|]. revert H. not_in. Qed.

(** ** The escapers *)

Lemma escape_string_ok s e : escape_string s = Ok e <-> ~ In x00 s /\ e = esc_string s.
Proof.
  revert e. induction s as [|c s IH]; intros e; cbn [escape_string].
  - split; [intros [= <-]; cbn; auto|intros [_ ->]; reflexivity].
  - destruct (beq_spec c x00) as [->|Hc].
    + split; [discriminate|]. intros [H _]. exfalso. apply H. now left.
    + rewrite bind_ok. split.
      * intros (r & H & [= <-]). apply IH in H as [H ->]. split; [cbn; intuition congruence|reflexivity].
      * intros [H ->]. exists (esc_string s). split; [apply IH; cbn in H; tauto|reflexivity].
Qed.

Lemma escape_string_total s : escape_string s <> Panic.
Proof.
  induction s as [|c s IH]; cbn [escape_string]; [discriminate|]. destruct (beq c x00); [discriminate|].
  intros H. apply bind_panic in H as [H|(r & _ & H)]; [tauto|discriminate].
Qed.

Lemma invalid_char_name_spec c : invalid_char_name c = true <-> In c (B "$" ++ [x00; x0d; x0a; x09]).
Proof.
  unfold invalid_char_name. rewrite existsb_exists. split.
  - intros (x & Hx & H). apply beq_true in H. subst. exact Hx.
  - intros H. exists c. rewrite beq_refl. auto.
Qed.

Lemma escape_name_ok s e :
  escape_name s = Ok e <-> (forall c, In c s -> ~ In c (B "$" ++ [x00; x0d; x0a; x09])) /\ e = esc_name s.
Proof.
  revert e. induction s as [|c s IH]; intros e; cbn [escape_name].
  - split; [intros [= <-]; cbn; auto|intros [_ ->]; reflexivity].
  - destruct (invalid_char_name c) eqn:Hc.
    + split; [discriminate|]. intros [H _]. exfalso. apply (H c); [now left|].
      now apply invalid_char_name_spec.
    + rewrite bind_ok. split.
      * intros (r & H & [= <-]). apply IH in H as [H ->]. split; [|reflexivity].
        intros x [<-|Hx]; [|now apply H]. rewrite <- invalid_char_name_spec. congruence.
      * intros [H ->]. exists (esc_name s). split; [apply IH; split; [|reflexivity]|reflexivity].
        intros x Hx. apply H. now right.
Qed.

Lemma escape_name_total s : escape_name s <> Panic.
Proof.
  induction s as [|c s IH]; cbn [escape_name]; [discriminate|]. destruct (invalid_char_name c); [discriminate|].
  intros H. apply bind_panic in H as [H|(r & _ & H)]; [tauto|discriminate].
Qed.

(** ** Legacy unescaping *)

Lemma legacy_match_none s :
  legacy_match legacy_table s = None <-> forall p, In p legacy_seqs -> has_prefix p s = false.
Proof.
  assert (H : forall t, legacy_match t s = None <-> forall p, In p (map fst t) -> has_prefix p s = false).
  { induction t as [|[p r] t IH]; cbn; [intuition|].
    destruct (has_prefix p s) eqn:E.
    - split; [discriminate|]. intros H. rewrite (H p) in E; [discriminate|auto].
    - rewrite IH. split; [intros H q [<-|Hq]; auto|intros H q Hq; auto]. }
  apply (H legacy_table).
Qed.

Lemma no_legacy_tail c s : no_legacy (c :: s) -> no_legacy s.
Proof. intros H p Hp (a & r & ->). apply (H p Hp). exists (c :: a), r. reflexivity. Qed.

Lemma no_legacy_prefix s p : no_legacy s -> In p legacy_seqs -> has_prefix p s = false.
Proof.
  intros H Hp. destruct (has_prefix p s) eqn:E; [|reflexivity].
  apply has_prefix_spec in E as [r ->]. exfalso. apply (H p Hp). exists [], r. reflexivity.
Qed.

Lemma legacy_fuel_id f s : length s <= f -> no_legacy s -> legacy_fuel f s = s.
Proof.
  revert s. induction f as [|f IH]; intros s Hf H; cbn [legacy_fuel].
  - destruct s; [reflexivity|cbn in Hf; lia].
  - rewrite (proj2 (legacy_match_none s)).
    + destruct s as [|c t]; [reflexivity|]. f_equal. apply IH; [cbn in Hf; lia|].
      eapply no_legacy_tail; exact H.
    + intros p Hp. now apply no_legacy_prefix.
Qed.

Lemma legacy_unescape_id s : no_legacy s -> legacy_unescape s = s.
Proof. apply legacy_fuel_id. lia. Qed.

(** A pattern of ordinary bytes matches escaped text iff it matches the text. *)
Lemma has_prefix_esc (f : byte -> bytes) p s :
  (forall c, In c p -> f c = [c]) ->
  (forall c, f c = [c] \/ exists r, f c = "&"%byte :: r) ->
  ~ In "&"%byte p ->
  has_prefix p (flat_map f s) = has_prefix p s.
Proof.
  intros H1 H2. revert s. induction p as [|x p IH]; intros s Hp; [reflexivity|].
  destruct s as [|c s]; [reflexivity|]. cbn [flat_map].
  destruct (H2 c) as [E|[r E]]; rewrite E.
  - cbn. rewrite IH; [reflexivity| |].
    + intros y Hy. apply H1. now right.
    + cbn in Hp. tauto.
  - cbn [app has_prefix].
    replace (beq x "&") with false by (symmetry; apply beq_false; cbn in Hp; intuition congruence).
    cbn [andb]. destruct (beq_spec x c) as [->|]; [|reflexivity].
    exfalso. rewrite H1 in E by now left. injection E as -> _. cbn in Hp. tauto.
Qed.

Lemma occurs_suffix p s : occurs p s <-> exists a t, s = a ++ t /\ has_prefix p t = true.
Proof.
  split.
  - intros (a & r & ->). exists a, (p ++ r). split; [reflexivity|apply has_prefix_app].
  - intros (a & t & -> & H). apply has_prefix_spec in H as [r ->]. now exists a, r.
Qed.

(** Suffixes of escaped text either start at a character boundary or inside a
    replacement text. *)
Lemma flat_map_suffix (f : byte -> bytes) s a t :
  flat_map f s = a ++ t ->
  exists s1 s2, s = s1 ++ s2 /\
    (t = flat_map f s2 \/
     exists c s2' u v, s2 = c :: s2' /\ f c = u ++ v /\ u <> [] /\ v <> [] /\ t = v ++ flat_map f s2').
Proof.
  revert a. induction s as [|c s IH]; intros a H; cbn in H.
  - exists [], []. split; [reflexivity|]. left. symmetry in H. apply app_eq_nil in H as [_ ->]. reflexivity.
  - destruct (Nat.le_gt_cases (length (f c)) (length a)) as [Hl|Hl].
    + assert (Ha : a = f c ++ skipn (length (f c)) a).
      { rewrite <- (firstn_skipn (length (f c)) a) at 1. f_equal.
        transitivity (firstn (length (f c)) (a ++ t)).
        - rewrite firstn_app. replace (length (f c) - length a) with 0 by lia. cbn. now rewrite app_nil_r.
        - rewrite <- H. apply firstn_app_exact. }
      rewrite Ha in H. rewrite <- app_assoc in H. apply app_inv_head in H.
      destruct (IH _ H) as (s1 & s2 & -> & Hs). exists (c :: s1), s2. split; [reflexivity|exact Hs].
    + destruct a as [|x a].
      * exists [], (c :: s). split; [reflexivity|]. left. cbn. now symmetry.
      * exists [], (c :: s). split; [reflexivity|]. right.
        exists c, s, (x :: a), (skipn (length (x :: a)) (f c)).
        assert (Hf : f c = (x :: a) ++ skipn (length (x :: a)) (f c)).
        { rewrite <- (firstn_skipn (length (x :: a)) (f c)) at 1. f_equal.
          transitivity (firstn (length (x :: a)) (f c ++ flat_map f s)).
          - rewrite firstn_app. replace (length (x :: a) - length (f c)) with 0 by lia. cbn [firstn]. now rewrite app_nil_r.
          - rewrite H. apply firstn_app_exact. }
        split; [reflexivity|]. split; [exact Hf|]. split; [discriminate|].
        split.
        { intros E. rewrite E, app_nil_r in Hf. rewrite Hf in Hl. lia. }
        rewrite Hf, <- app_assoc in H. now apply app_inv_head in H.
Qed.

Lemma occurs_esc (f : byte -> bytes) x p s :
  (forall c, In c (x :: p) -> f c = [c]) ->
  (forall c, f c = [c] \/ exists r, f c = "&"%byte :: r /\ ~ In x r) ->
  ~ In "&"%byte (x :: p) ->
  (occurs (x :: p) (flat_map f s) <-> occurs (x :: p) s).
Proof.
  intros H1 H2 Hp. rewrite !occurs_suffix. split.
  - intros (a & t & E & Ht). apply flat_map_suffix in E as (s1 & s2 & -> & [->|(c & s2' & u & v & -> & Hc & Hu & Hv & ->)]).
    + exists s1, s2. split; [reflexivity|]. rewrite has_prefix_esc in Ht; auto.
      intros c. destruct (H2 c) as [|(r & E & _)]; eauto.
    + exfalso. destruct v as [|y v]; [congruence|]. cbn in Ht.
      apply andb_true_iff in Ht as [Ht _]. apply beq_true in Ht. subst y.
      destruct (H2 c) as [E|(r & E & Hr)]; rewrite Hc in E.
      * destruct u as [|z [|]]; [congruence|discriminate|discriminate].
      * destruct u as [|z u]; [congruence|]. injection E as _ E. apply Hr. rewrite <- E.
        rewrite in_app_iff. right. now left.
  - intros (a & t & -> & Ht). exists (flat_map f a), (flat_map f t).
    rewrite flat_map_app. split; [reflexivity|]. rewrite has_prefix_esc; auto.
    intros c. destruct (H2 c) as [|(r & E & _)]; eauto.
Qed.

Lemma esc_string_shape x c : In x (B "/ <>\F") -> esc_char_string c = [c] \/ exists r, esc_char_string c = "&"%byte :: r /\ ~ In x r.
Proof.
  intros Hx.
  destruct (esc_char_string_cases c) as [(E & _)|[(-> & E)|[(-> & E)|(-> & E)]]]; [now left|..]; right; rewrite E;
  eexists; (split; [reflexivity|]); revert Hx; not_in.
Qed.

Lemma esc_name_shape x c : In x (B "/ <>\F") -> esc_char_name c = [c] \/ exists r, esc_char_name c = "&"%byte :: r /\ ~ In x r.
Proof.
  intros Hx.
  destruct (esc_char_name_cases c) as [(E & _)|[(-> & E)|[(-> & E)|[(-> & E)|[(-> & E)|(-> & E)]]]]]; [now left|..]; right; rewrite E;
  eexists; (split; [reflexivity|]); revert Hx; not_in.
Qed.

Lemma esc_char_string_plain c : ~ In c (B "&$|") -> esc_char_string c = [c].
Proof.
  intros H. destruct (esc_char_string_cases c) as [(E & _)|[(-> & E)|[(-> & E)|(-> & E)]]]; [exact E|..];
  exfalso; apply H; cbn; tauto.
Qed.

Lemma esc_char_name_plain c : ~ In c (B "&<>$|") -> esc_char_name c = [c].
Proof.
  intros H. destruct (esc_char_name_cases c) as [(E & _)|[(-> & E)|[(-> & E)|[(-> & E)|[(-> & E)|(-> & E)]]]]]; [exact E|..];
  exfalso; apply H; cbn; tauto.
Qed.

(** Patterns made of plain bytes and starting with one of the bytes / space < > \ F
    occur in escaped text iff they occur in the text. *)
Definition plain_pat (p : bytes) : Prop :=
  match p with
  | [] => False
  | x :: _ => In x (B "/ <>\F") /\ forall c, In c p -> ~ In c (B "&<>$|")
  end.

Lemma occurs_esc_string p s : plain_pat p -> (occurs p (esc_string s) <-> occurs p s).
Proof.
  destruct p as [|x p]; [intros []|]. intros [Hx Hp]. apply occurs_esc.
  - intros c Hc. apply esc_char_string_plain. specialize (Hp c Hc). cbn in *. tauto.
  - intros c. now apply esc_string_shape.
  - intros H. apply (Hp _ H). now left.
Qed.

Lemma occurs_esc_name p s : plain_pat p -> (occurs p (esc_name s) <-> occurs p s).
Proof.
  destruct p as [|x p]; [intros []|]. intros [Hx Hp]. apply occurs_esc.
  - intros c Hc. apply esc_char_name_plain. now apply Hp.
  - intros c. now apply esc_name_shape.
  - intros H. apply (Hp _ H). now left.
Qed.

Lemma legacy_seqs_plain p : In p legacy_seqs -> plain_pat p.
Proof.
  intros H. repeat (destruct H as [<-|H]); try destruct H; cbn; (split; [tauto|]);
  intros c Hc; repeat (destruct Hc as [<-|Hc]); try destruct Hc; not_in.
Qed.

Lemma no_legacy_esc_string s : no_legacy s -> no_legacy (esc_string s).
Proof. intros H p Hp Ho. apply (proj1 (occurs_esc_string p s (legacy_seqs_plain p Hp))) in Ho. exact (H p Hp Ho). Qed.

Lemma no_legacy_esc_name s : no_legacy s -> no_legacy (esc_name s).
Proof. intros H p Hp Ho. apply (proj1 (occurs_esc_name p s (legacy_seqs_plain p Hp))) in Ho. exact (H p Hp Ho). Qed.

(** ** UnescapeBytes *)

Lemma no_dcn_no_legacy s : ~ occurs (B "/%DCN") s -> no_legacy s.
Proof.
  intros H p Hp (a & r & ->). apply H.
  assert (exists q, p = B "/%DCN" ++ q) as [q ->].
  { repeat (destruct Hp as [<-|Hp]); try destruct Hp; eexists; reflexivity. }
  exists a, (q ++ r). now rewrite <- app_assoc.
Qed.

Lemma unescape_bytes_no_legacy s : no_legacy s -> unescape_bytes s = html_unescape s.
Proof.
  intros H. unfold unescape_bytes. rewrite legacy_unescape_id by exact H.
  destruct (contains_byte "&" s) eqn:Eh.
  - cbn [negb andb]. destruct (index _ s); reflexivity.
  - apply contains_byte_false in Eh. rewrite html_unescape_id by exact Eh.
    destruct (index _ s); reflexivity.
Qed.

(** Bytes without ampersand and legacy sequence are unchanged. *)
Lemma unescape_bytes_id s : ~ In "&"%byte s -> no_legacy s -> unescape_bytes s = s.
Proof. intros H1 H2. rewrite unescape_bytes_no_legacy by exact H2. now apply html_unescape_id. Qed.

Lemma html_unescape_esc_string s : html_unescape (esc_string s) = s.
Proof.
  induction s as [|c s IH]; [reflexivity|]. cbn [esc_string flat_map].
  change (flat_map esc_char_string s) with (esc_string s).
  destruct (esc_char_string_cases c) as [(E & H & _)|[(-> & E)|[(-> & E)|(-> & E)]]]; rewrite E.
  - cbn [app]. rewrite html_unescape_other by exact H. congruence.
  - rewrite html_unescape_amp_ent. congruence.
  - rewrite html_unescape_dollar_ent. congruence.
  - rewrite html_unescape_pipe_ent. congruence.
Qed.

Lemma html_unescape_esc_name s : html_unescape (esc_name s) = s.
Proof.
  induction s as [|c s IH]; [reflexivity|]. cbn [esc_name flat_map].
  change (flat_map esc_char_name s) with (esc_name s).
  destruct (esc_char_name_cases c) as [(E & H & _)|[(-> & E)|[(-> & E)|[(-> & E)|[(-> & E)|(-> & E)]]]]]; rewrite E.
  - cbn [app]. rewrite html_unescape_other by exact H. congruence.
  - rewrite html_unescape_amp_ent. congruence.
  - rewrite html_unescape_lt_ent. congruence.
  - rewrite html_unescape_gt_ent. congruence.
  - rewrite html_unescape_dollar_ent. congruence.
  - rewrite html_unescape_pipe_ent. congruence.
Qed.

Lemma unescape_esc_string s : no_legacy s -> unescape_bytes (esc_string s) = s.
Proof.
  intros H. rewrite unescape_bytes_no_legacy by now apply no_legacy_esc_string.
  apply html_unescape_esc_string.
Qed.

Lemma unescape_esc_name s : no_legacy s -> unescape_bytes (esc_name s) = s.
Proof.
  intros H. rewrite unescape_bytes_no_legacy by now apply no_legacy_esc_name.
  apply html_unescape_esc_name.
Qed.

(** ** Bridges to the specification *)

Lemma scalar_iff r : scalar r <-> is_scalar r = true.
Proof. unfold scalar, is_scalar. lia. Qed.

Lemma utf8_of_eq r : utf8_of r = encode_scalar r.
Proof. reflexivity. Qed.

Lemma utf8_text_iff s : utf8_text s <-> utf8_valid s = true.
Proof.
  rewrite utf8_valid_spec. unfold utf8_text. split; intros (rs & H & ->); exists rs; (split; [|reflexivity]);
  revert H; apply Forall_impl; intros r; now rewrite scalar_iff.
Qed.

Lemma encodes_to_run c s w : encodes_to c s w <-> run_codec c s = Ok w.
Proof.
  destruct c as [f|]; cbn.
  - destruct (f s); split; congruence.
  - split; congruence.
Qed.

Lemma name_wire_len_esc w :
  ~ In "$"%byte w -> N.of_nat (length (esc_name w)) = name_wire_len w.
Proof.
  induction w as [|c w IH]; [reflexivity|]. intros H.
  cbn [esc_name flat_map name_wire_len fold_right]. rewrite app_length, Nat2N.inj_add.
  change (fold_right _ 0%N w) with (name_wire_len w). change (flat_map esc_char_name w) with (esc_name w).
  rewrite IH by (cbn in H; tauto).
  assert (Hc : N.of_nat (length (esc_char_name c)) =
    (if (b2n c =? 38) then 5 else if (b2n c =? 60) || (b2n c =? 62) then 4
     else if (b2n c =? 124) then 6 else 1)%N).
  { assert (Hd : c <> "$"%byte) by (cbn in H; intuition congruence). clear - Hd.
    destruct c; try reflexivity; congruence. }
  rewrite Hc. lia.
Qed.

Lemma invalid_chars_iff (w : bytes) :
  (forall c, In c w -> ~ In c (B "$" ++ [x00; x0d; x0a; x09])) <->
  (~ In "$"%byte w /\ ~ In x00 w /\ ~ In x0d w /\ ~ In x0a w /\ ~ In x09 w).
Proof.
  split.
  - intros H. repeat split; intros Hin; apply (H _ Hin); cbn; tauto.
  - intros (H1 & H2 & H3 & H4 & H5) c Hc Hin.
    repeat (destruct Hin as [<-|Hin]); try destruct Hin; contradiction.
Qed.

(** ** Round trips *)

Lemma text_unmarshal_ok dec data d w :
  unescape_bytes data = w -> run_codec dec w = Ok d -> utf8_valid d = true ->
  text_unmarshal dec data = Ok d.
Proof. intros <- H1 H2. unfold text_unmarshal. rewrite H1. cbn. now rewrite H2. Qed.

Lemma string_marshal_ok enc s w :
  run_codec enc s = Ok w -> ~ In x00 w -> string_marshal enc s = Ok (esc_string w).
Proof.
  intros H1 H2. unfold string_marshal. rewrite H1. cbn [bind]. now apply escape_string_ok.
Qed.

Lemma string_roundtrip enc dec s w :
  string_text enc dec s w ->
  string_marshal enc s = Ok (esc_string w) /\ string_unmarshal dec (esc_string w) = Ok s.
Proof.
  intros ((H1 & H2 & H3) & H4 & H5). apply encodes_to_run in H1, H2. apply utf8_text_iff in H3.
  split; [now apply string_marshal_ok|].
  unfold string_unmarshal.
  replace (contains_byte x00 (esc_string w)) with false.
  - apply text_unmarshal_ok with w; auto. now apply unescape_esc_string.
  - symmetry. apply contains_byte_false. rewrite esc_string_in_iff; [exact H4|..]; not_in.
Qed.

Lemma esc_name_no_invalid w c :
  (forall c, In c w -> ~ In c (B "$" ++ [x00; x0d; x0a; x09])) ->
  In c (esc_name w) -> ~ In c (B "$" ++ [x00; x0d; x0a; x09]).
Proof.
  intros H Hc. apply in_esc_name in Hc as [[Hc _]|Hc]; [now apply H|].
  repeat (destruct Hc as [<-|Hc]); try destruct Hc; not_in.
Qed.

Lemma name_roundtrip enc dec s w :
  name_text enc dec s w ->
  name_marshal enc s = Ok (esc_name w) /\ name_unmarshal dec (esc_name w) = Ok s.
Proof.
  intros ((H1 & H2 & H3) & H4 & H5 & H6 & H7). apply encodes_to_run in H1, H2. apply utf8_text_iff in H3.
  rewrite <- name_wire_len_esc in H5 by tauto. rewrite <- invalid_chars_iff in H6.
  assert (max_name = 256) by reflexivity.
  split.
  - unfold name_marshal. replace (max_name <? length s)%nat with false by (symmetry; apply Nat.ltb_ge; lia).
    rewrite H1. cbn [bind]. now apply escape_name_ok.
  - unfold name_unmarshal.
    replace (max_name <? length (esc_name w))%nat with false by (symmetry; apply Nat.ltb_ge; lia).
    replace (existsb invalid_char_name (esc_name w)) with false.
    + apply text_unmarshal_ok with w; auto. now apply unescape_esc_name.
    + symmetry. apply not_true_iff_false. rewrite existsb_exists. intros (c & Hc & Hi).
      apply invalid_char_name_spec in Hi. eapply esc_name_no_invalid; eassumption.
Qed.

(** ** Safety of successful marshalling, for every encoder *)

Lemma run_codec_total c s : run_codec c s <> Panic.
Proof. destruct c as [f|]; cbn; [destruct (f s); discriminate|discriminate]. Qed.

Lemma string_marshal_safe enc s e :
  string_marshal enc s = Ok e -> ~ In "$"%byte e /\ ~ In "|"%byte e /\ ~ In x00 e.
Proof.
  unfold string_marshal. rewrite bind_ok. intros (w & _ & H).
  apply escape_string_ok in H as [H ->].
  repeat split; [apply esc_string_no_dollar|apply esc_string_no_pipe|].
  rewrite esc_string_in_iff; [exact H|..]; not_in.
Qed.

Lemma name_marshal_safe enc s e :
  name_marshal enc s = Ok e ->
  ~ In "$"%byte e /\ ~ In "|"%byte e /\ ~ In "<"%byte e /\ ~ In ">"%byte e /\
  ~ In x00 e /\ ~ In x0d e /\ ~ In x0a e /\ ~ In x09 e.
Proof.
  unfold name_marshal. destruct (_ <? _)%nat; [discriminate|].
  rewrite bind_ok. intros (w & _ & H). apply escape_name_ok in H as [H ->].
  split; [apply esc_name_no_dollar|]. split; [apply esc_name_no_pipe|].
  split; [apply esc_name_no_lt|]. split; [apply esc_name_no_gt|].
  repeat split; intros Hin; eapply esc_name_no_invalid in Hin; try eassumption; apply Hin; cbn; tauto.
Qed.

Lemma string_marshal_total enc s : string_marshal enc s <> Panic.
Proof.
  unfold string_marshal. intros H. apply bind_panic in H as [H|(w & _ & H)];
  [now apply run_codec_total in H|now apply escape_string_total in H].
Qed.

Lemma name_marshal_total enc s : name_marshal enc s <> Panic.
Proof.
  unfold name_marshal. destruct (_ <? _)%nat; [discriminate|].
  intros H. apply bind_panic in H as [H|(w & _ & H)];
  [now apply run_codec_total in H|now apply escape_name_total in H].
Qed.

Lemma text_unmarshal_total dec d : text_unmarshal dec d <> Panic.
Proof.
  unfold text_unmarshal. intros H. apply bind_panic in H as [H|(w & _ & H)];
  [now apply run_codec_total in H|destruct (utf8_valid w); discriminate].
Qed.

Lemma string_unmarshal_total dec d : string_unmarshal dec d <> Panic.
Proof. unfold string_unmarshal. destruct (contains_byte _ _); [discriminate|apply text_unmarshal_total]. Qed.

Lemma name_unmarshal_total dec d : name_unmarshal dec d <> Panic.
Proof.
  unfold name_unmarshal. destruct (_ <? _)%nat; [discriminate|].
  destruct (existsb _ _); [discriminate|apply text_unmarshal_total].
Qed.

Lemma text_unmarshal_valid dec d s : text_unmarshal dec d = Ok s -> utf8_valid s = true.
Proof.
  unfold text_unmarshal. rewrite bind_ok. intros (w & _ & H).
  destruct (utf8_valid w) eqn:E; [|discriminate]. congruence.
Qed.

Lemma string_unmarshal_valid dec d s : string_unmarshal dec d = Ok s -> utf8_valid s = true.
Proof. unfold string_unmarshal. destruct (contains_byte _ _); [discriminate|apply text_unmarshal_valid]. Qed.

Lemma name_unmarshal_valid dec d s : name_unmarshal dec d = Ok s -> utf8_valid s = true.
Proof.
  unfold name_unmarshal. destruct (_ <? _)%nat; [discriminate|].
  destruct (existsb _ _); [discriminate|apply text_unmarshal_valid].
Qed.

(** ** Statements used by PropsText.v *)

Lemma string_roundtrip_spec enc dec s w :
  string_text enc dec s w ->
  exists e, string_marshal enc s = Ok e /\ string_unmarshal dec e = Ok s.
Proof. intros H. exists (esc_string w). now apply string_roundtrip. Qed.

Lemma name_roundtrip_spec enc dec s w :
  name_text enc dec s w ->
  exists e, name_marshal enc s = Ok e /\ name_unmarshal dec e = Ok s.
Proof. intros H. exists (esc_name w). now apply name_roundtrip. Qed.

Lemma entity_string_eq c : esc_char_string c = entity_string c.
Proof. destruct c; reflexivity. Qed.

Lemma flat_map_ext_in {A C} (f g : A -> list C) l :
  (forall x, In x l -> f x = g x) -> flat_map f l = flat_map g l.
Proof.
  induction l as [|x l IH]; intros H; [reflexivity|]. cbn. f_equal; [apply H; now left|].
  apply IH. intros y Hy. apply H. now right.
Qed.

Lemma entity_name_eq c : c <> "$"%byte -> esc_char_name c = entity_name c.
Proof. destruct c; try reflexivity. congruence. Qed.

Lemma string_marshal_iff enc s e :
  string_marshal enc s = Ok e <->
  exists w, encodes_to enc s w /\ ~ In x00 w /\ e = flat_map entity_string w.
Proof.
  unfold string_marshal. rewrite bind_ok. split.
  - intros (w & Hw & H). apply escape_string_ok in H as [H ->]. exists w.
    split; [now apply encodes_to_run|]. split; [exact H|]. apply flat_map_ext_in.
    intros c _. apply entity_string_eq.
  - intros (w & Hw & H & ->). exists w. split; [now apply encodes_to_run|].
    apply escape_string_ok. split; [exact H|]. apply flat_map_ext_in. intros c _. symmetry. apply entity_string_eq.
Qed.

Lemma name_marshal_iff enc s e :
  name_marshal enc s = Ok e <->
  (N.of_nat (length s) <= 256)%N /\
  exists w, encodes_to enc s w /\
    (~ In "$"%byte w /\ ~ In x00 w /\ ~ In x0d w /\ ~ In x0a w /\ ~ In x09 w) /\ e = flat_map entity_name w.
Proof.
  unfold name_marshal. assert (Hm : max_name = 256) by reflexivity.
  destruct (max_name <? length s)%nat eqn:E; [apply Nat.ltb_lt in E|apply Nat.ltb_ge in E].
  - split; [discriminate|]. intros [H _]. lia.
  - rewrite bind_ok. split.
    + intros (w & Hw & H). split; [lia|]. apply escape_name_ok in H as [H ->]. exists w.
      apply invalid_chars_iff in H.
      split; [now apply encodes_to_run|]. split; [exact H|]. apply flat_map_ext_in.
      intros c Hc. apply entity_name_eq. intros ->. tauto.
    + intros (_ & w & Hw & H & ->). exists w. split; [now apply encodes_to_run|].
      apply escape_name_ok. split; [now apply invalid_chars_iff|]. apply flat_map_ext_in.
      intros c Hc. symmetry. apply entity_name_eq. intros ->. tauto.
Qed.

Lemma decoded_valid :
  (forall dec d s, name_unmarshal dec d = Ok s -> utf8_text s) /\
  (forall dec d s, string_unmarshal dec d = Ok s -> utf8_text s) /\
  (forall dec d t, name_unmarshal dec d = Err (EUnknownEnc t) -> ~ utf8_text t /\ encodes_to dec (unescape_bytes d) t) /\
  (forall dec d t, string_unmarshal dec d = Err (EUnknownEnc t) -> ~ utf8_text t /\ encodes_to dec (unescape_bytes d) t).
Proof.
  assert (Ht : forall dec d t, text_unmarshal dec d = Err (EUnknownEnc t) -> ~ utf8_text t /\ encodes_to dec (unescape_bytes d) t).
  { intros dec d t. unfold text_unmarshal. destruct (run_codec dec (unescape_bytes d)) as [w|e|] eqn:E; cbn [bind].
    - destruct (utf8_valid w) eqn:Ev; [discriminate|]. intros [= <-]. rewrite utf8_text_iff, encodes_to_run. split; congruence.
    - destruct dec as [f|]; cbn in E; [|discriminate]. destruct (f _); congruence.
    - discriminate. }
  repeat split.
  - intros dec d s H. apply utf8_text_iff. eapply name_unmarshal_valid; exact H.
  - intros dec d s H. apply utf8_text_iff. eapply string_unmarshal_valid; exact H.
  - revert H. unfold name_unmarshal. destruct (_ <? _)%nat; [discriminate|]. destruct (existsb _ _); [discriminate|]. intros H. now apply Ht in H.
  - revert H. unfold name_unmarshal. destruct (_ <? _)%nat; [discriminate|]. destruct (existsb _ _); [discriminate|]. intros H. now apply Ht in H.
  - revert H. unfold string_unmarshal. destruct (contains_byte _ _); [discriminate|]. intros H. now apply Ht in H.
  - revert H. unfold string_unmarshal. destruct (contains_byte _ _); [discriminate|]. intros H. now apply Ht in H.
Qed.

(** Deciding [no_legacy] on concrete texts. *)
Definition no_legacyb (s : bytes) : bool :=
  forallb (fun p => match index p s with Some _ => false | None => true end) legacy_seqs.

Lemma no_legacyb_sound s : no_legacyb s = true -> no_legacy s.
Proof.
  unfold no_legacyb. rewrite forallb_forall. intros H p Hp Ho. specialize (H p Hp).
  destruct (index p s) eqn:E; [discriminate|]. apply index_none in E. now apply E.
Qed.

Lemma legacy_not_roundtrip :
  exists s, utf8_text s /\ ~ In x00 s /\
    exists e s', string_marshal None s = Ok e /\ string_unmarshal None e = Ok s' /\ s' <> s.
Proof.
  exists (B "/%DCN126%/"). split; [now apply utf8_text_iff|]. split; [not_in|].
  exists (B "/%DCN126%/"), (B "~"). split; [reflexivity|]. split; [vm_compute; reflexivity|discriminate].
Qed.

Lemma string_text_instance :
  let enc s := Some (flat_map (fun c => if beq c xc3 then [] else if beq c xa9 then [xe9] else [c]) s) in
  let dec s := Some (flat_map (fun c => if beq c xe9 then [xc3; xa9] else [c]) s) in
  let s := B "a&b$c|" ++ [xc3; xa9] in
  string_text (Some enc) (Some dec) s (B "a&b$c|" ++ [xe9]).
Proof.
  cbv zeta. split; [|split; [not_in|now apply no_legacyb_sound]].
  repeat split. now apply utf8_text_iff.
Qed.

Lemma name_text_instance : name_text None None (B "<|user|> & co") (B "<|user|> & co").
Proof.
  split; [repeat split; now apply utf8_text_iff|]. split; [discriminate|]. split; [discriminate|].
  split; [|now apply no_legacyb_sound]. repeat split; not_in.
Qed.
