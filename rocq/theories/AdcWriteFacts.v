(** Lemmas about what the ADC encoder writes. *)
From Coq Require Import Decimal DecimalString.
From Verif Require Import Base BaseFacts Num NumFacts NumSpec SpecText Base32 Base32Facts Tiger SpecHash TigerFacts SpecNmdc NmdcMsgFacts.
From Verif Require Import AdcText SpecAdc AdcTextFacts AdcValue AdcValueFacts AdcMessage AdcMessageFacts AdcCustomFacts AdcPacket AdcPacketFacts SpecAdcMessage SpecAdcWrite.

(** ** Numbers and base32 *)
Lemma number_format z : format_int z = number_text z.
Proof.
  rewrite format_int_text. unfold int_text, number_text, dec_text. destruct z as [|p|p]; try reflexivity.
Qed.
Lemma two_format z : fmt_02d z = two_digits z.
Proof.
  unfold two_digits. rewrite <- number_format. unfold fmt_02d.
  destruct ((0 <=? z)%Z && (z <? 10)%Z)%bool eqn:E.
  - apply andb_true_iff in E as [E1 E2]. apply Z.leb_le in E1. apply Z.ltb_lt in E2.
    assert (z = 0 \/ z = 1 \/ z = 2 \/ z = 3 \/ z = 4 \/ z = 5 \/ z = 6 \/ z = 7 \/ z = 8 \/ z = 9)%Z as K by lia.
    repeat (destruct K as [->|K]; [reflexivity|]). now subst.
  - assert (L : 2 <= length (format_int z)).
    { unfold format_int. destruct (Z.ltb_spec z 0) as [L|L].
      - cbn [length]. pose proof (format_uint_not_nil (Z.to_N (- z))) as NN. destruct (format_uint _); [congruence|cbn; lia].
      - assert (H : (10 <= z)%Z). { apply andb_false_iff in E as [E|E]; [apply Z.leb_gt in E|apply Z.ltb_ge in E]; lia. }
        pose proof (denotes_format_int z) as D. unfold format_int in D. destruct (z <? 0)%Z eqn:Q; [apply Z.ltb_lt in Q; lia|].
        destruct (format_uint (Z.to_N z)) as [|a [|b r]] eqn:F; [now apply format_uint_not_nil in F| |cbn; lia]. exfalso.
        pose proof (digits_format (Z.to_N z)) as G. rewrite F in G. cbn in G. pose proof (format_uint_forall (Z.to_N z)) as A. rewrite F in A. cbn in A.
        apply andb_true_iff in A as [A _]. apply is_digit_iff in A.
        revert G. destruct (is_digit a) eqn:IA; intros G; [|discriminate]. injection G as G. unfold digit_val in *. lia. }
    destruct (length (format_int z) <? 2) eqn:Q; [apply Nat.ltb_lt in Q; lia|]. reflexivity.
Qed.
Lemma false_repeat r : Forall (eq false) r -> r = repeat false (length r).
Proof. induction 1 as [|b r <- _ IH]; [reflexivity|]. cbn. now rewrite <- IH. Qed.
Lemma bits8_total b : length (flat_map bits8 b) = 8 * length b.
Proof. induction b as [|c b IH]; [reflexivity|]. cbn [flat_map length]. rewrite app_length, IH. change (length (bits8 c)) with 8. lia. Qed.
Lemma bits5_total b : length (flat_map bits5 b) = 5 * length b.
Proof. induction b as [|c b IH]; [reflexivity|]. cbn [flat_map length]. rewrite app_length, IH, bits5_length. lia. Qed.
Lemma base32_iff b t : base32_of b t <-> t = b32_encode b.
Proof.
  destruct (base32_text b) as (k & K & S & _). split.
  - intros (r & L & F & H). apply false_repeat in F. assert (E : length r = k).
    { destruct S as (vs & _ & E1), H as (vs' & _ & E2). apply (f_equal (@length _)) in E1, E2. rewrite app_length, bits8_total, bits5_total in *.
      rewrite repeat_length in E1. lia. }
    rewrite E in F. rewrite F in H. now apply (spells_unique t _ _ H).
  - intros ->. exists (repeat false k). rewrite repeat_length. split; [exact K|]. split; [|exact S]. clear. induction k; constructor; auto.
Qed.

(** ** Values and structures *)
Lemma escaped_iff s e : escaped s e <-> e = escape s.
Proof. split; [apply escaped_escape|intros ->; apply escape_escaped]. Qed.
Lemma escaped_list l es : Forall2 escaped l es <-> es = map escape l.
Proof.
  split.
  - induction 1 as [|s e l es H _ IH]; [reflexivity|]. cbn. apply escaped_iff in H. now subst.
  - intros ->. induction l; cbn; constructor; auto using escape_escaped.
Qed.
Lemma value_iff k : simple k = true -> forall v t, (forall k', k = KPtr k' -> v <> zero k) -> k <> KStrs -> (value_text k v t <-> t = marshal_value k v).
Proof.
  intros L v t NZ NS. destruct k; cbn [value_text marshal_value val simple] in *; try reflexivity; try (apply escaped_iff); try (apply base32_iff); try congruence.
  - now rewrite number_format.
  - unfold path_marshal. split.
    + intros (es & F & ->). apply escaped_list in F. now subst.
    + intros ->. exists (map escape v). split; [now apply escaped_list|reflexivity].
  - destruct v as [x|]; [|now elim (NZ k)]. destruct k; try discriminate; cbn [value_text marshal_value]; try reflexivity; apply base32_iff.
Qed.
Lemma field_iff f v l : simple (f_kind f) = true -> pointers_optional f = true -> (field_text f v l <-> l = field_words f v).
Proof.
  intros L P. unfold field_text, field_words.
  assert (Om : (negb (positional f) && negb (f_req f) && is_zero (f_kind f) v)%bool = true <-> omitted f v).
  { unfold omitted, positional. rewrite !andb_true_iff, !negb_true_iff, bytes_eqb_false, zero_dec. tauto. }
  destruct (negb (positional f) && negb (f_req f) && is_zero (f_kind f) v)%bool eqn:E.
  - assert (O : omitted f v) by now apply Om. tauto.
  - assert (O : ~ omitted f v) by (intros X; apply Om in X; discriminate).
    assert (NZ : forall k', f_kind f = KPtr k' -> v <> zero (f_kind f)).
    { intros k' K Z. apply O. unfold pointers_optional in P. rewrite K in P. apply andb_true_iff in P as [P1 P2]. apply negb_true_iff in P1, P2.
      unfold omitted. unfold positional in P1. apply bytes_eqb_false in P1. auto. }
    transitivity (match f_kind f as k return val k -> Prop with
      | KStrs => fun v => exists es, Forall2 escaped v es /\ l = map (word f) es
      | k => fun v => exists t, value_text k v t /\ l = [word f t]
      end v); [tauto|].
    clear O Om E P. pose proof (value_iff _ L v) as V. destruct f as [n t rq k]. cbn [f_kind] in *.
    assert (W : k <> KStrs -> ((exists x, value_text k v x /\ l = [word {| f_name := n; f_tag := t; f_req := rq; f_kind := k |} x]) <->
      l = [word {| f_name := n; f_tag := t; f_req := rq; f_kind := k |} (marshal_value k v)])).
    { intros NS. split; [intros (x & H & ->); apply V in H; try assumption; now subst|]. intros ->. eexists. split; [apply V; try assumption; reflexivity|reflexivity]. }
    destruct k; try (apply W; discriminate). split.
    + intros (es & F & ->). apply escaped_list in F. subst. now rewrite map_map.
    + intros ->. exists (map escape v). split; [now apply escaped_list|now rewrite map_map].
Qed.
Lemma fields_iff fs : forallb (fun f => simple (f_kind f)) fs = true -> forallb pointers_optional fs = true ->
  forall v l, fields_text fs v l <-> l = struct_words fs v.
Proof.
  induction fs as [|f r IH]; intros P Q v l; [reflexivity|]. cbn [forallb] in P, Q. apply andb_true_iff in P as [P P'], Q as [Q Q'].
  cbn [fields_text struct_words]. split.
  - intros (l1 & l2 & H1 & H2 & ->). apply field_iff in H1; try assumption. apply IH in H2; try assumption. now subst.
  - intros ->. do 2 eexists. split; [apply field_iff; try assumption; reflexivity|]. split; [apply IH; try assumption; reflexivity|reflexivity].
Qed.

(** ** Messages *)
Lemma get_text g : get_marshal g =
  join (B " ") ([escape (g_type g); escape (g_path g); number_text (g_start g); number_text (g_bytes g)] ++ if g_comp g then [B "ZL1"] else []).
Proof. unfold get_marshal. rewrite !number_format. destruct (g_comp g); cbn [app]; rewrite !join_cons2; [reflexivity|]. cbn [join]. now rewrite app_nil_r. Qed.
Lemma message_text_iff m d : message_text m d <-> marshal m = d.
Proof.
  split.
  - destruct 1 as [t v l H|f|sev code msg e H| | |s|s t H|typ path s n z et ep H1 H2|typ path s n z et ep H1 H2|l ws H|t d]; cbn [marshal].
    + rewrite marshal_struct_words. apply fields_iff in H; [now subst|destruct t; vm_compute; reflexivity|destruct t; vm_compute; reflexivity].
    + unfold modfeatures_marshal. f_equal. apply map_ext. intros [f0 b]. cbn. now destruct b.
    + apply escaped_iff in H. subst e. unfold status_marshal. cbn [st_sev st_code st_msg]. now rewrite number_format, two_format.
    + reflexivity.
    + reflexivity.
    + reflexivity.
    + apply base32_iff in H. now subst.
    + apply escaped_iff in H1, H2. subst. now rewrite get_text.
    + apply escaped_iff in H1, H2. subst. now rewrite get_text.
    + unfold fields_marshal. f_equal. induction H as [|[t v] w l ws (e & E & ->) _ IH]; [reflexivity|]. cbn [map fst snd] in *. apply escaped_iff in E. subst e. now rewrite IH.
    + reflexivity.
  - intros <-. destruct m as [t v|f|[sev code msg]| | |s|s|[typ path s n z]|[typ path s n z]|l|t d]; cbn [marshal].
    + rewrite marshal_struct_words. constructor. apply fields_iff; [destruct t; vm_compute; reflexivity|destruct t; vm_compute; reflexivity|reflexivity].
    + unfold modfeatures_marshal. erewrite map_ext; [constructor|]. intros [f0 b]. cbn. now destruct b.
    + unfold status_marshal. cbn [st_sev st_code st_msg]. rewrite number_format, two_format. constructor. apply escape_escaped.
    + constructor.
    + constructor.
    + constructor.
    + constructor. now apply base32_iff.
    + rewrite get_text. constructor; apply escape_escaped.
    + rewrite get_text. constructor; apply escape_escaped.
    + unfold fields_marshal. constructor. induction l as [|[t v] l IH]; cbn [map]; constructor; [|exact IH]. exists (escape v). split; [apply escape_escaped|reflexivity].
    + constructor.
Qed.

(** ** Packets *)
Lemma code_cmd m : code_of m = cmd m.
Proof. destruct m as [t v| | | | | | | | | |]; reflexivity. Qed.
Lemma join_app_one c a l : join [c] (a :: l) = a ++ flat_map (fun w => c :: w) l.
Proof.
  revert a. induction l as [|b l IH]; intros a; [cbn; now rewrite app_nil_r|]. rewrite join_cons2, IH. reflexivity.
Qed.
Lemma selectors_words sel : sel <> [] ->
  " "%byte :: removelast (flat_map selector sel) = flat_map (fun w => " "%byte :: w) (map (fun s : bytes * bool => (if snd s then B "+" else B "-") ++ fst s) sel).
Proof.
  destruct sel as [|s sel _] using rev_ind; [congruence|]. intros _. rewrite flat_selectors_snoc, removelast_snoc, map_app, flat_map_app. cbn [map flat_map]. rewrite app_nil_r.
  destruct s as [f b]. cbn [fst snd]. transitivity ((" "%byte :: flat_map selector sel) ++ (if b then B "+" else B "-") ++ f); [now destruct b|].
  change (" "%byte :: ((if b then B "+" else B "-") ++ f)) with ([" "%byte] ++ (if b then B "+" else B "-") ++ f). rewrite (app_assoc _ [" "%byte]). f_equal. clear.
  induction sel as [|[f b] sel IH]; [reflexivity|]. cbn [map flat_map fst snd]. rewrite <- app_assoc, <- IH. unfold selector. cbn [fst snd]. destruct b; cbn [app]; now rewrite <- app_assoc.
Qed.
Lemma header_words p : exists ws, header_text p ws /\ forall ws', header_text p ws' -> ws' = ws /\ header' p = flat_map (fun w => " "%byte :: w) ws.
Proof.
  destruct p as [m|m|id m|id to m|id to m|m|id sel m|cid m]; cbn [header_text header'];
    try (eexists; split; [reflexivity|]; intros ws' ->; split; [reflexivity|]; cbn [flat_map app]; rewrite ?app_nil_r; reflexivity).
  - eexists. split; [reflexivity|]. intros ws' ->. split; [reflexivity|]. cbn [flat_map]. rewrite <- app_comm_cons. do 2 f_equal.
    destruct sel as [|s sel]; [reflexivity|]. now apply selectors_words.
  - exists [b32_encode cid]. split; [exists (b32_encode cid); split; [now apply base32_iff|reflexivity]|]. intros ws' (t & T & ->). apply base32_iff in T. subst t.
    split; [reflexivity|]. cbn [flat_map]. now rewrite app_nil_r.
Qed.
Lemma letter_kind p : letter p = kind_of p.
Proof. now destruct p. Qed.
Lemma packet_text_iff p l : packet_text p l <-> marshal_packet p = l.
Proof.
  destruct (header_words p) as (ws & H & U). destruct (U ws H) as [_ E].
  assert (F : marshal_packet p = letter p :: join (B " ") (code_of (message p) :: ws ++ match marshal (message p) with [] => [] | _ => [marshal (message p)] end) ++ [x0a]).
  { rewrite marshal_form, E. change (letter p) with (kind_of p). change (code_of (message p)) with (cmd (message p)). change (B " ") with [" "%byte]. rewrite join_app_one, flat_map_app, <- !app_assoc. do 3 f_equal.
    unfold tail_of. destruct (marshal (message p)); cbn [flat_map]; rewrite ?app_nil_r; reflexivity. }
  split.
  - intros (ws' & d & H' & D & ->). apply U in H' as [-> _]. apply message_text_iff in D. subst d. exact F.
  - intros <-. exists ws, (marshal (message p)). split; [exact H|]. split; [now apply message_text_iff|exact F].
Qed.
