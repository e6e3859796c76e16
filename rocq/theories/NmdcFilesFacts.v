(** File transfer and search messages: encoding and decoding. *)
From Verif Require Import Base BaseFacts Num NumFacts Utf8 Utf8Facts Html HtmlFacts NmdcText NmdcTextFacts SpecText SpecHash SpecNmdc NmdcMsgFacts Base32 Base32Facts Tiger TigerFacts NmdcChat NmdcChatFacts NmdcHubFacts NmdcFiles.

(** ** ADCGET, ADCSND, Direction *)

Lemma es_no_space w : ~ In " "%byte w -> ~ In " "%byte (esc_string w).
Proof. apply esc_string_no; not_in. Qed.
Lemma en_no_space w : ~ In " "%byte w -> ~ In " "%byte (esc_name w).
Proof. apply esc_name_no; not_in. Qed.
Lemma uint_no_space n : ~ In " "%byte (format_uint n). Proof. apply format_uint_notin. reflexivity. Qed.
Lemma int_no_space n : ~ In " "%byte (format_int n). Proof. apply format_int_notin; [reflexivity|discriminate]. Qed.

Lemma adcget_encodes enc dec m p : adcget_wire enc dec m p -> adcget_marshal enc m = Ok p.
Proof.
  intros H. destruct H. unfold adcget_marshal. cbn [ag_type ag_ident ag_start ag_length ag_compressed ag_downloaded]. texts. steps.
  rewrite format_dec, format_int_text. destruct db; rewrite ?format_dec; reflexivity.
Qed.
Lemma flags_db f m n : f <> 0 -> u64 n -> adcget_flags f m (B "DB" ++ format_uint n) = (set_ag_downloaded m (Some n), Ok tt).
Proof.
  intros Hf Hn. destruct f as [|f]; [contradiction|].
  assert (E : cut_or_all (B "DB" ++ format_uint n) = (B "DB" ++ format_uint n, [])).
  { unfold cut_or_all. rewrite (proj2 (cut_none _ _)); [reflexivity|]. apply in_app_not; [not_in|apply uint_no_space]. }
  change (B "DB" ++ format_uint n) with ("D"%byte :: "B"%byte :: format_uint n) in *. cbn [adcget_flags]. rewrite E.
  change (bytes_eqb ("D"%byte :: "B"%byte :: format_uint n) (B "ZL1")) with false. change (has_prefix (B "DB") ("D"%byte :: "B"%byte :: format_uint n)) with true. cbn [skipn].
  rewrite parse_uint_trim_format by exact Hn. destruct f; reflexivity.
Qed.
Lemma flags_ok m z db : match db with Some n => u64 n | None => True end -> ag_compressed m = false -> ag_downloaded m = None ->
  let d := match z, db with
           | false, None => []
           | true, None => B "ZL1"
           | false, Some n => B "DB" ++ format_uint n
           | true, Some n => B "ZL1 DB" ++ format_uint n
           end in
  adcget_flags (length d) m d = (set_ag_downloaded (set_ag_compressed m z) db, Ok tt).
Proof.
  intros Hd H1 H2. destruct m. cbn in H1, H2. subst. destruct z, db as [n|]; cbn zeta.
  - change (B "ZL1 DB" ++ format_uint n) with (B "ZL1" ++ " "%byte :: (B "DB" ++ format_uint n)).
    assert (E : cut_or_all (B "ZL1" ++ " "%byte :: (B "DB" ++ format_uint n)) = (B "ZL1", B "DB" ++ format_uint n)).
    { unfold cut_or_all. rewrite cut_app by not_in. reflexivity. }
    change (length (B "ZL1" ++ " "%byte :: B "DB" ++ format_uint n)) with (S (5 + length (format_uint n))).
    change (B "ZL1" ++ " "%byte :: B "DB" ++ format_uint n) with ("Z"%byte :: (B "L1" ++ " "%byte :: B "DB" ++ format_uint n)) in *. cbn [adcget_flags]. rewrite E.
    change (bytes_eqb (B "ZL1") (B "ZL1")) with true. cbv iota. rewrite flags_db; [reflexivity|discriminate|exact Hd].
  - reflexivity.
  - rewrite flags_db; [reflexivity| |exact Hd]. discriminate.
  - reflexivity.
Qed.
Lemma int_text_not_m1 z : (0 <= z)%Z -> bytes_eqb (format_int z) (B "-1") = false.
Proof.
  intros H. apply bytes_eqb_false. intros E. unfold format_int in E. replace (z <? 0)%Z with false in E by (symmetry; apply Z.ltb_ge; exact H).
  destruct (format_cons (Z.to_N z)) as (c & r & Ec & Hc). rewrite Ec in E. injection E as -> _. discriminate.
Qed.
Lemma parse_uint_int z : (0 <= z < 2 ^ 64)%Z -> parse_uint_trim (format_int z) = Ok (Z.to_N z).
Proof.
  intros H. unfold format_int. replace (z <? 0)%Z with false by (symmetry; apply Z.ltb_ge; lia). apply parse_uint_trim_format.
  unfold is_uint64, two64. change (2 ^ 64)%Z with 18446744073709551616%Z in H. lia.
Qed.
Lemma adcget_decodes enc dec m p m0 : adcget_wire enc dec m p -> ag_compressed m0 = false -> ag_downloaded m0 = None -> adcget_unmarshal dec m0 p = (m, Ok tt).
Proof.
  intros H Hz Hd. destruct m0. cbn in Hz, Hd. subst. destruct H as [t wt i wi start len z db H1 H2 S1 S2 Us L D]. texts.
  rewrite <- format_dec, <- format_int_text. unfold adcget_unmarshal.
  change (B " ") with [" "%byte]. cbn [app].
  rewrite cut_app by (apply es_no_space; exact S1). steps.
  rewrite cut_app by (apply es_no_space; exact S2). steps.
  rewrite cut_app by apply uint_no_space. rewrite parse_uint_trim_format by exact Us.
  set (d := match z, db with
           | false, None => []
           | true, None => B "ZL1"
           | false, Some n => B "DB" ++ format_uint n
           | true, Some n => B "ZL1 DB" ++ format_uint n
           end).
  assert (C : cut_or_all (format_int len ++ (if z then B " ZL1" else []) ++ match db with Some n => B " DB" ++ dec_text n | None => [] end) = (format_int len, d)).
  { unfold cut_or_all, d. destruct z, db as [n|]; cbn [app]; rewrite <- ?format_dec.
    - change (B " ZL1" ++ B " DB" ++ format_uint n) with (" "%byte :: B "ZL1 DB" ++ format_uint n). rewrite cut_app by apply int_no_space. reflexivity.
    - change (B " ZL1" ++ []) with (" "%byte :: B "ZL1"). rewrite cut_app by apply int_no_space. reflexivity.
    - change (B " DB" ++ format_uint n) with (" "%byte :: B "DB" ++ format_uint n). rewrite cut_app by apply int_no_space. reflexivity.
    - rewrite app_nil_r, (proj2 (cut_none _ _)) by apply int_no_space. reflexivity. }
  rewrite C. destruct L as [->|L].
  - change (bytes_eqb (format_int (-1)) (B "-1")) with true. cbv iota. unfold d. rewrite flags_ok by (exact D || reflexivity). reflexivity.
  - rewrite int_text_not_m1 by lia. rewrite parse_uint_int by lia. unfold d. rewrite flags_ok by (exact D || reflexivity).
    cbn. rewrite to_int64_small by (unfold two63; lia). rewrite Z2N.id by lia. reflexivity.
Qed.

Lemma adcsnd_encodes enc dec m p : adcsnd_wire enc dec m p -> adcsnd_marshal enc m = Ok p.
Proof.
  intros H. destruct H. unfold adcsnd_marshal. cbn [as_type as_ident as_start as_length as_compressed]. texts. steps.
  rewrite !format_dec. reflexivity.
Qed.
Lemma adcsnd_decodes enc dec m p m0 : adcsnd_wire enc dec m p -> as_compressed m0 = false -> adcsnd_unmarshal dec m0 p = (m, Ok tt).
Proof.
  intros H Hz. destruct m0. cbn in Hz. subst. destruct H as [t wt i wi start len z H1 H2 S1 S2 Us Ul]. texts.
  rewrite <- !format_dec. unfold adcsnd_unmarshal. change (B " ") with [" "%byte]. cbn [app].
  rewrite cut_app by (apply es_no_space; exact S1). steps.
  rewrite cut_app by (apply es_no_space; exact S2). steps.
  rewrite cut_app by apply uint_no_space. rewrite parse_uint_trim_format by exact Us.
  unfold cut_or_all. destruct z.
  - change (B " ZL1") with (" "%byte :: B "ZL1"). rewrite cut_app by apply uint_no_space. rewrite parse_uint_trim_format by exact Ul. reflexivity.
  - rewrite app_nil_r, (proj2 (cut_none _ _)) by apply uint_no_space. rewrite parse_uint_trim_format by exact Ul. reflexivity.
Qed.

Lemma direction_encodes m p : direction_wire m p -> direction_marshal m = p.
Proof.
  intros H. destruct H as [up n H]. unfold direction_marshal. cbn [di_upload di_number]. rewrite to_int64_small by (unfold two63; lia).
  unfold format_int. replace (Z.of_N n <? 0)%Z with false by (symmetry; apply Z.ltb_ge; lia). rewrite N2Z.id, format_dec. reflexivity.
Qed.
Lemma direction_decodes m p m0 : direction_wire m p -> direction_unmarshal m0 p = (m, Ok tt).
Proof.
  intros H. destruct H as [up n H]. rewrite <- format_dec. unfold direction_unmarshal. change (B " ") with [" "%byte]. cbn [app].
  rewrite cut_app by (destruct up; not_in). rewrite parse_uint_trim_format by (unfold is_uint64, two64; lia).
  replace ((n <? 1) || (32767 <? n))%N with false by (symmetry; apply orb_false_iff; split; apply N.ltb_ge; lia).
  destruct up; reflexivity.
Qed.

(** ** Search *)

Lemma dollars_replace s : dollars s = replace_byte " " "$" s. Proof. reflexivity. Qed.
Lemma dollars_app a b : dollars (a ++ b) = dollars a ++ dollars b. Proof. apply map_app. Qed.
Lemma undollars s : ~ In "$"%byte s -> replace_byte "$" " " (dollars s) = s.
Proof.
  induction s as [|c s IH]; intros H; [reflexivity|]. cbn [dollars map replace_byte]. unfold dollars, replace_byte in IH. rewrite IH by (intros K; apply H; right; exact K).
  destruct (beq_spec c " "); [subst; reflexivity|]. rewrite (proj2 (beq_false c "$")); [reflexivity|]. intros ->. apply H. left. reflexivity.
Qed.
Lemma dollars_in c s : c <> "$"%byte -> In c (dollars s) -> In c s.
Proof. intros H K. unfold dollars in K. apply in_map_iff in K. destruct K as (x & E & Hx). destruct (beq x " "); [congruence|]. subst. exact Hx. Qed.
Lemma dollars_id p x : ~ In "$"%byte p -> dollars x = p -> x = p.
Proof.
  intros H <-. induction x as [|c x IH]; [reflexivity|]. cbn [dollars map] in *. destruct (beq_spec c " ").
  - exfalso. apply H. left. reflexivity.
  - f_equal. apply IH. intros K. apply H. right. exact K.
Qed.
Lemma no_legacy_dollars s : no_legacy s -> no_legacy (dollars s).
Proof.
  intros H p Hp (a & r & E). apply (H p Hp). unfold dollars in E. 
  apply map_eq_app in E. destruct E as (a' & s' & -> & Ea & E). apply map_eq_app in E. destruct E as (p' & r' & -> & Ep & Er).
  exists a', r'. assert (EP : p' = p); [|rewrite EP; reflexivity]. apply dollars_id; [|exact Ep].
  intros K. clear - Hp K. repeat (destruct Hp as [<-|Hp]; [revert K; not_in|]). destruct Hp.
Qed.
Lemma utf8_dollars s : utf8_text s -> utf8_text (dollars s).
Proof.
  intros (rs & F & ->). exists (map (fun r => if (r =? 32)%N then 36%N else r) rs). split.
  - apply Forall_map. eapply Forall_impl; [|exact F]. intros r Hr. cbv beta. destruct (r =? 32)%N; [left; reflexivity|exact Hr].
  - induction rs as [|r rs IH]; [reflexivity|]. inversion F as [|? ? F1 F2]; subst. cbn [map flat_map]. rewrite dollars_app, IH by exact F2. f_equal.
    destruct (r =? 32)%N eqn:E; [apply N.eqb_eq in E; subst; reflexivity|]. apply N.eqb_neq in E.
    assert (K : ~ In " "%byte (utf8_of r)).
    { rewrite utf8_of_eq. intros K. apply scalar_iff in F1. pose proof (encode_scalar_no_ascii r _ F1 K eq_refl) as K2.
      unfold encode_scalar in K2. destruct (r <? 128)%N eqn:R; [|destruct (r <? 2048)%N; [discriminate|destruct (r <? 65536)%N; discriminate]].
      apply N.ltb_lt in R. injection K2 as K2. apply (f_equal b2n) in K2. rewrite b2n_n2b in K2 by lia. apply E. exact K2. }
    clear - K. induction (utf8_of r) as [|c u IH]; [reflexivity|]. cbn [dollars map]. unfold dollars in IH. rewrite IH by (intros H; apply K; right; exact H).
    rewrite (proj2 (beq_false c " ")); [reflexivity|]. intros ->. apply K. left. reflexivity.
Qed.
Lemma html_unescape_dollars w : html_unescape (dollars (esc_string w)) = dollars w.
Proof.
  induction w as [|c w IH]; [reflexivity|]. cbn [esc_string flat_map]. rewrite dollars_app. fold (esc_string w).
  destruct (esc_char_string_cases c) as [(E & H1 & H2 & H3)|[(-> & E)|[(-> & E)|(-> & E)]]]; rewrite E.
  - cbn [dollars map app]. fold (dollars w). destruct (beq_spec c " ").
    + rewrite html_unescape_other by discriminate. f_equal. exact IH.
    + rewrite html_unescape_other by exact H1. f_equal. exact IH.
  - change (dollars (B "&amp;")) with (B "&amp;"). rewrite html_unescape_amp_ent. cbn [dollars map]. f_equal. exact IH.
  - change (dollars (B "&#36;")) with (B "&#36;"). rewrite html_unescape_dollar_ent. cbn [dollars map]. f_equal. exact IH.
  - change (dollars (B "&#124;")) with (B "&#124;"). rewrite html_unescape_pipe_ent. cbn [dollars map]. f_equal. exact IH.
Qed.
Lemma pattern_received enc dec p w : string_text enc dec p w -> encodes_to dec (dollars w) (dollars p) -> string_unmarshal dec (dollars (esc_string w)) = Ok (dollars p).
Proof.
  intros S E. pose proof S as S0. destruct S0 as ((_ & _ & V) & Z & L).
  unfold string_unmarshal. replace (contains_byte x00 (dollars (esc_string w))) with false.
  - apply text_unmarshal_ok with (w := dollars w).
    + rewrite unescape_bytes_no_legacy by (apply no_legacy_dollars, no_legacy_esc_string; exact L). apply html_unescape_dollars.
    + apply encodes_to_run. exact E.
    + apply utf8_text_iff, utf8_dollars. exact V.
  - symmetry. apply contains_byte_false. intros K. apply dollars_in in K; [|discriminate]. apply Z; apply (esc_string_in_iff x00 w); [not_in|discriminate|discriminate|exact K].
Qed.
Lemma pattern_decodes enc dec p w : pattern_text enc dec p w -> string_unmarshal dec (dollars (esc_string w)) = Ok (dollars p).
Proof. intros (S & P1 & P2 & E). eapply pattern_received; eassumption. Qed.

Lemma tth_marshal h t : hash_spelled h t -> marshal_tth h = Ok (B "TTH:" ++ t).
Proof.
  intros H. apply hash_spelled_iff in H. destruct H as [H ->]. pose proof (hash_roundtrips h h H H) as (_ & _ & _ & _ & R & _).
  unfold marshal_tth. change base32_size with 39. rewrite R. reflexivity.
Qed.
Lemma tth_new h t : hash_spelled h t -> new_tth t = (h, Ok tt).
Proof.
  intros H. apply hash_spelled_iff in H. destruct H as [H ->]. pose proof (hash_roundtrips h (repeat x00 24) H eq_refl) as (_ & R & _).
  unfold new_tth. change hash_size with 24. rewrite R. reflexivity.
Qed.
Lemma symbol_char c v : symbol c v -> is_digit c = true \/ (65 <= b2n c <= 90)%N.
Proof.
  intros H. destruct H as [v H|v H].
  - right. rewrite b2n_n2b by lia. lia.
  - left. apply is_digit_iff. rewrite b2n_n2b by lia. lia.
Qed.
Lemma spelled_char h t c : hash_spelled h t -> In c t -> is_digit c = true \/ (65 <= b2n c <= 90)%N.
Proof.
  intros (_ & _ & vs & F & _) Hc. clear - F Hc. induction F as [|x v t vs H1 H2 IH]; [destruct Hc|]. destruct Hc as [<-|Hc]; [eapply symbol_char; exact H1|auto].
Qed.
Lemma spelled_no h t c : hash_spelled h t -> is_digit c = false -> ((b2n c <? 65) || (90 <? b2n c))%N = true -> ~ In c t.
Proof. intros H H1 H2 K. apply (spelled_char _ _ _ H) in K. rewrite H1 in K. apply orb_true_iff in H2. rewrite !N.ltb_lt in H2. destruct K as [K|K]; [discriminate|lia]. Qed.

Lemma search_encodes enc dec m p : search_wire enc dec m p -> search_marshal enc m = Ok p.
Proof.
  intros H. destruct H as [a u who r x size typ p wp Hw Hr Us Ut T0 T9 P|a u who r x size h t Hw Hr Us Hh]; unfold search_marshal; cbn [se_address se_user se_restricted se_ismax se_size se_dtype se_pattern se_tth].
  - assert (W : match a with [] => do n <- name_marshal enc u; Ok (B "Hub:" ++ n) | c :: a' => Ok (c :: a') end = Ok who).
    { destruct Hw as [(A & _ & _ & -> & ->)|(-> & wu & N & _ & ->)]; [destruct a; [contradiction|reflexivity]|]. texts. steps. reflexivity. }
    rewrite W. cbn [bind]. change data_tth with 9%N. rewrite (proj2 (N.eqb_neq typ 9)) by exact T9.
    destruct P as (P & _). texts. steps. rewrite (proj2 (N.eqb_neq typ 0)) by exact T0. rewrite !format_dec. f_equal. f_equal. f_equal.
    destruct r; [destruct x; reflexivity|]. rewrite (Hr eq_refl). reflexivity.
  - assert (W : match a with [] => do n <- name_marshal enc u; Ok (B "Hub:" ++ n) | c :: a' => Ok (c :: a') end = Ok who).
    { destruct Hw as [(A & _ & _ & -> & ->)|(-> & wu & N & _ & ->)]; [destruct a; [contradiction|reflexivity]|]. texts. steps. reflexivity. }
    rewrite W. cbn [bind N.eqb Pos.eqb]. change (9 =? data_tth)%N with true. cbv iota. rewrite (tth_marshal _ _ Hh). cbn [bind]. rewrite !format_dec.
    f_equal. f_equal. f_equal. destruct r; [destruct x; reflexivity|]. rewrite (Hr eq_refl). reflexivity.
Qed.

Lemma flag_T : unmarshal_flag (B "T") = Ok true. Proof. reflexivity. Qed.
Lemma flag_F : unmarshal_flag (B "F") = Ok false. Proof. reflexivity. Qed.
Lemma uint_no_q n : ~ In "?"%byte (format_uint n). Proof. apply format_uint_notin. reflexivity. Qed.
(** The search string up to its last field. *)
Lemma search_string_ok dec m r x size typ rest : (r = false -> x = true) -> u64 size -> u64 typ ->
  search_string dec m (restriction r x ++ B "?" ++ format_uint size ++ B "?" ++ format_uint typ ++ B "?" ++ rest) =
  search_what dec (set_se_dtype (set_se_size (set_se_ismax (set_se_restricted m r) x) size) typ) rest.
Proof.
  intros Hr Us Ut. unfold search_string, restriction.
  replace ((((if r then B "T" else B "F") ++ B "?" ++ (if x then B "T" else B "F")) ++ B "?" ++ format_uint size ++ B "?" ++ format_uint typ ++ B "?" ++ rest))
    with ((if r then B "T" else B "F") ++ "?"%byte :: (if x then B "T" else B "F") ++ "?"%byte :: format_uint size ++ "?"%byte :: format_uint typ ++ "?"%byte :: rest)
    by (rewrite <- !app_assoc; reflexivity).
  rewrite splitn_byte_cut by (destruct r; not_in). rewrite splitn_byte_cut by (destruct x; not_in). rewrite !splitn_byte_cut by apply uint_no_q. cbn [splitn_byte].
  replace (unmarshal_flag (if r then B "T" else B "F")) with (@Ok bool r) by (destruct r; reflexivity).
  replace (unmarshal_flag (if x then B "T" else B "F")) with (@Ok bool x) by (destruct x; reflexivity).
  destruct (format_cons size) as (c & q & Ec & Hc).
  assert (F2 : forall m, search_size m (format_uint size) = (set_se_size m size, Ok tt)).
  { intros m'. unfold search_size. rewrite parse_uint_trim_format by exact Us. rewrite Ec. replace (beq c "-") with false; [reflexivity|]. symmetry. apply beq_false. intros ->. discriminate. }
  rewrite F2. rewrite parse_uint_trim_format by exact Ut. reflexivity.
Qed.
Lemma search_who enc dec a u who rest m0 : who_wire enc dec a u who -> se_address m0 = [] -> se_user m0 = [] ->
  search_unmarshal dec m0 (who ++ B " " ++ rest) = search_string dec (set_se_user (set_se_address m0 a) u) rest.
Proof.
  intros Hw A1 U1. unfold search_unmarshal. change (B " " ++ rest) with (" "%byte :: rest).
  destruct m0. cbn in A1, U1. subst.
  destruct Hw as [(A & S & NH & -> & ->)|(-> & wu & N & S & ->)].
  - rewrite cut_app by exact S. rewrite starts_with_prefix in NH. apply not_true_is_false in NH. rewrite NH. reflexivity.
  - texts. rewrite cut_app by (apply in_app_not; [not_in|apply en_no_space; exact S]). rewrite has_prefix_app. change 4 with (length (B "Hub:")). rewrite skipn_app_exact. steps. reflexivity.
Qed.
Lemma search_decodes enc dec m p m0 : search_wire enc dec m p ->
  se_address m0 = [] -> se_user m0 = [] -> se_pattern m0 = [] -> se_tth m0 = None -> search_unmarshal dec m0 p = (m, Ok tt).
Proof.
  intros H A0 U0 P0 T0. destruct m0 as [a0 u0 r0 x0 s0 d0 p0 t0]. cbn in A0, U0, P0, T0. subst.
  destruct H as [a u who r x size typ p wp Hw Hr Us Ut Z0 T9 P|a u who r x size h t Hw Hr Us Hh].
  - rewrite (search_who enc dec a u) by (assumption || reflexivity). rewrite es_eq, <- !format_dec. rewrite search_string_ok by assumption. unfold search_what. cbn [se_dtype set_se_dtype].
    change data_tth with 9%N. rewrite (proj2 (N.eqb_neq typ 9)) by exact T9. rewrite (pattern_decodes _ _ _ _ P). rewrite undollars by apply P. reflexivity.
  - rewrite (search_who enc dec a u) by (assumption || reflexivity). rewrite <- !format_dec.
    change (B "?9?TTH:" ++ t) with (B "?" ++ format_uint 9 ++ B "?" ++ (B "TTH:" ++ t)). rewrite search_string_ok by (assumption || reflexivity).
    unfold search_what. cbn [se_dtype set_se_dtype]. change (9 =? data_tth)%N with true. cbv iota. rewrite has_prefix_app. change (skipn 4 (B "TTH:" ++ t)) with t.
    replace (last_is "$" t) with false.
    + rewrite (tth_new _ _ Hh). reflexivity.
    + symmetry. apply last_is_false. intros [q E]. apply (spelled_no _ _ "$" Hh eq_refl eq_refl). rewrite E. apply in_app_iff. right. left. reflexivity.
Qed.

(** ** Search results *)

Definition slotb (c : byte) : bool := (beq c "/" || is_digit c)%bool.
Lemma slotb_spec c : slotb c = true <-> slot_char c.
Proof. unfold slotb, slot_char, digit_char. rewrite orb_true_iff, beq_true, is_digit_iff. tauto. Qed.
Lemma slot_range c : beq c "/" = false -> ((b2n c <? 48) || (57 <? b2n c))%N = negb (slotb c).
Proof.
  intros H. unfold slotb. rewrite H. cbn [orb]. destruct (is_digit c) eqn:E.
  - apply is_digit_iff in E. apply orb_false_iff. rewrite !N.ltb_ge. lia.
  - apply not_true_iff_false in E. rewrite is_digit_iff in E. apply orb_true_iff. rewrite !N.ltb_lt. lia.
Qed.
(** The scan stops at the last byte which is neither a digit nor a slash. *)
Lemma sr_scan_spec r : forall seen acc,
  (exists d c a, r = rev d ++ c :: rev a /\ Forall slot_char d /\ ~ slot_char c /\
     sr_scan r seen acc = ((seen || contains_byte "/" d)%bool, Some (a, d ++ acc))) \/
  (Forall slot_char r /\ snd (sr_scan r seen acc) = None).
Proof.
  induction r as [|c r IH]; intros seen acc; [right; split; [constructor|reflexivity]|].
  cbn [sr_scan]. destruct (beq c "/") eqn:E1.
  - apply beq_true in E1. subst c. destruct (IH true ("/"%byte :: acc)) as [(d & c & a & -> & F & Hc & E)|[F E]].
    + left. exists (d ++ ["/"%byte]), c, a. rewrite rev_app_distr. repeat split; [apply Forall_app; split; [exact F|constructor; [left; reflexivity|constructor]]|exact Hc|].
      rewrite E. f_equal; [|rewrite <- app_assoc; reflexivity]. unfold contains_byte. rewrite existsb_app. cbn. rewrite !orb_true_r. reflexivity.
    + right. split; [constructor; [left; reflexivity|exact F]|exact E].
  - rewrite slot_range by exact E1. destruct (slotb c) eqn:E2; cbn [negb].
    + pose proof (proj1 (slotb_spec c) E2) as S. destruct (IH seen (c :: acc)) as [(d & x & a & -> & F & Hc & E)|[F E]].
      * left. exists (d ++ [c]), x, a. rewrite rev_app_distr. repeat split; [apply Forall_app; split; [exact F|constructor; [exact S|constructor]]|exact Hc|].
        rewrite E. f_equal; [|rewrite <- app_assoc; reflexivity]. unfold contains_byte. rewrite existsb_app. cbn [existsb]. rewrite E1. rewrite !orb_false_r. reflexivity.
      * right. split; [constructor; [exact S|exact F]|exact E].
    + left. exists [], c, (rev r). rewrite rev_involutive. repeat split; [constructor| |cbn; rewrite orb_false_r; reflexivity].
      rewrite <- slotb_spec, E2. discriminate.
Qed.
Lemma digit_slot z : Forall slot_char (format_uint z).
Proof. apply Forall_forall. intros c Hc. right. apply is_digit_iff. eapply format_uint_in. exact Hc. Qed.
Lemma scan_dir path slots : Forall slot_char slots -> In "/"%byte slots -> sr_scan (rev (path ++ " "%byte :: slots)) false [] = (true, Some (path, slots)).
Proof.
  intros F I. destruct (sr_scan_spec (rev (path ++ " "%byte :: slots)) false []) as [(d & c & a & E & Fd & Hc & R)|[Fr _]].
  - apply (f_equal (@rev byte)) in E. rewrite rev_involutive, rev_app_distr in E. cbn [rev] in E. rewrite !rev_involutive, <- app_assoc in E. cbn [app] in E.
    assert (K : path = a /\ slots = d /\ c = " "%byte).
    { clear R. revert a E. induction path as [|x path IH]; intros [|y a] E; cbn in E.
      - injection E as <- <-. auto.
      - injection E as -> E. exfalso. rewrite E in F. apply Forall_app in F. destruct F as [_ F]. inversion F; subst. contradiction.
      - injection E as -> E. exfalso. rewrite <- E in Fd. apply Forall_app in Fd. destruct Fd as [_ Fd]. inversion Fd as [|? ? [K|K] _]; subst; [discriminate|vm_compute in K; destruct K; congruence].
      - injection E as -> E. destruct (IH a E) as (-> & -> & ->). auto. }
    destruct K as (-> & -> & ->). rewrite R, app_nil_r. cbn [orb]. rewrite (proj2 (contains_byte_spec _ _)) by exact I. reflexivity.
  - exfalso. rewrite rev_app_distr in Fr. cbn [rev] in Fr. rewrite <- app_assoc in Fr. apply Forall_app in Fr. destruct Fr as [_ Fr]. inversion Fr as [|? ? [K|K] _]; subst; [discriminate|vm_compute in K; destruct K; congruence].
Qed.
Lemma scan_file path : ~ slots_like path -> match sr_scan (rev path) false [] with (true, Some _) => False | _ => True end.
Proof.
  intros H. destruct (sr_scan_spec (rev path) false []) as [(d & c & a & E & Fd & Hc & R)|[_ E]].
  - rewrite R. cbn [orb]. destruct (contains_byte "/" d) eqn:K; [|exact I]. apply H. exists a, c, d. apply contains_byte_spec in K.
    apply (f_equal (@rev byte)) in E. rewrite rev_involutive, rev_app_distr in E. cbn [rev] in E. rewrite !rev_involutive, <- app_assoc in E. auto.
  - destruct (sr_scan (rev path) false []) as [b o]. cbn in E. subst o. destruct b; exact I.
Qed.

Lemma esc_string_id w : ~ In "&"%byte w -> ~ In "$"%byte w -> ~ In "|"%byte w -> esc_string w = w.
Proof.
  induction w as [|c w IH]; intros H1 H2 H3; [reflexivity|]. unfold esc_string in *. cbn [flat_map].
  rewrite IH; [|intros K; apply H1; right; exact K|intros K; apply H2; right; exact K|intros K; apply H3; right; exact K].
  rewrite esc_char_string_plain; [reflexivity|]. intros [<-|[<-|[<-|[]]]]; [apply H1|apply H2|apply H3]; left; reflexivity.
Qed.

(** One component of the path, and the whole path. *)
Lemma sr_parts enc dec path : Forall (sr_part enc dec) path ->
  Forall2 (fun p e => string_marshal enc p = Ok e) path path /\
  (forall c, In c [x05; "&"%byte; "$"%byte; "|"%byte] -> ~ In c (join (B "\") path)) /\
  (forall x, In x path -> ~ In "\"%byte x).
Proof.
  intros F. split; [|split].
  - induction F as [|p path (S & H1 & H2 & H3 & H4 & H5) F IH]; constructor; [|exact IH]. texts. rewrite esc_string_id in M by assumption. exact M.
  - intros c Hc K. apply join_in in K. rewrite Forall_forall in F. destruct K as [K|(x & Hx & K)].
    + destruct K as [<-|[]]. revert Hc. not_in.
    + destruct (F x Hx) as (_ & H1 & H2 & H3 & H4 & H5). repeat (destruct Hc as [<-|Hc]; [contradiction|]). destruct Hc.
  - intros x Hx. rewrite Forall_forall in F. apply (F x Hx).
Qed.

Lemma sr_hub_encodes enc dec hub tth p : sr_hub_wire enc dec hub tth p ->
  match tth with Some t => marshal_tth t | None => string_marshal enc hub end = Ok p.
Proof.
  destruct tth as [h|]; cbn [sr_hub_wire].
  - intros (_ & t & H & ->). apply tth_marshal. exact H.
  - intros (w & H & _ & _ & ->). texts. exact M.
Qed.
Lemma sr_to_encodes enc dec to p : sr_to_wire enc dec to p ->
  match to with [] => Ok [] | t => do b <- name_marshal enc t; Ok (sr_sep :: b) end = Ok p.
Proof. intros [[-> ->]|(H & w & N & _ & ->)]; [reflexivity|]. texts. destruct to; [contradiction|]. steps. reflexivity. Qed.

Lemma sr_encodes enc dec m p : sr_wire enc dec m p -> sr_marshal enc m = Ok p.
Proof.
  intros H. destruct H as [f wf path size free total hub tth ph addr to pt N S Hp F _ _ _ _ _ Hh _ Ht|f wf path free total hub tth ph addr to pt N S Hp F _ _ _ Hh _ Ht];
    unfold sr_marshal; cbn [sr_from sr_path sr_isdir sr_size sr_free sr_total sr_hubname sr_tth sr_hubaddr sr_to]; texts; steps;
    destruct (sr_parts _ _ _ F) as (P & _); pose proof (marshal_path_join _ true _ _ P) as PJ; destruct path as [|p0 path]; try contradiction;
    rewrite PJ; cbn [bind app]; rewrite (sr_hub_encodes _ _ _ _ _ Hh); cbn [bind]; 
    pose proof (sr_to_encodes _ _ _ _ Ht) as T; 
    (assert (T' : match to with [] => Ok [] | c :: t => do b <- name_marshal enc (c :: t); Ok (sr_sep :: b) end = Ok pt) by (destruct to; exact T)); rewrite T'; cbn [bind];
    rewrite ?format_dec, !format_int_text; f_equal; f_equal.
Qed.

Lemma sr_tail_ok enc dec m addr to pt : ~ In ")"%byte addr -> sr_to_wire enc dec to pt -> sr_to m = [] ->
  sr_tail dec m (addr ++ B ")" ++ pt) = (set_sr_to (set_sr_hubaddr m addr) to, Ok tt).
Proof.
  intros Ha Ht Hm. unfold sr_tail. change (B ")" ++ pt) with (")"%byte :: pt). rewrite cut_app by exact Ha.
  destruct Ht as [[-> ->]|(H & w & N & Hw & ->)].
  - destruct m. cbn in Hm. subst. reflexivity.
  - texts. destruct (esc_name w) as [|c e] eqn:E; [apply esc_name_nil in E; contradiction|]. rewrite beq_refl. steps. reflexivity.
Qed.
Lemma cut_paren a r : ~ occurs (B " (") a -> cut_seq (B " (") (a ++ B " (" ++ r) = Some (a, r).
Proof.
  intros H. apply cut_seq_before; [discriminate|]. intros x y -> Hy. apply not_true_is_false. intros P.
  apply has_prefix_spec in P. destruct P as [q P].
  assert (Hs : ~ has_prefix (B " (") y = true).
  { intros K. apply has_prefix_spec in K. destruct K as [z ->]. apply H. exists x, z. reflexivity. }
  destruct y as [|c0 y]; [contradiction|]. cbn in P. injection P as -> P.
  repeat (destruct y as [|?c y]; [cbn in P; discriminate P|cbn in P; injection P as -> P]).
  apply Hs. reflexivity.
Qed.
Lemma sr_hub_ok enc dec m hub tth ph addr to pt : sr_hub_wire enc dec hub tth ph -> ~ In ")"%byte addr -> sr_to_wire enc dec to pt ->
  sr_to m = [] -> sr_hubname m = [] -> sr_tth m = None ->
  sr_hub dec m (ph ++ B " (" ++ addr ++ B ")" ++ pt) = (set_sr_to (set_sr_hubaddr (set_sr_tth (set_sr_hubname m hub) tth) addr) to, Ok tt).
Proof.
  intros Hh Ha Ht M1 M2 M3. unfold sr_hub. destruct tth as [h|]; cbn [sr_hub_wire] in Hh.
  - destruct Hh as (-> & t & Hh & ->). rewrite <- !app_assoc. rewrite has_prefix_app. change (skipn 4 (B "TTH:" ++ t ++ B " (" ++ addr ++ B ")" ++ pt)) with (t ++ B " (" ++ addr ++ B ")" ++ pt).
    assert (L : length t = base32_size) by apply Hh.
    rewrite <- L. rewrite skipn_app_exact, has_prefix_app. rewrite firstn_app_exact. rewrite (tth_new _ _ Hh). cbv iota.
    replace (length t + 2) with (length (t ++ B " (")) by (rewrite app_length; reflexivity).
    replace (t ++ B " (" ++ addr ++ B ")" ++ pt) with ((t ++ B " (") ++ addr ++ B ")" ++ pt) by (rewrite <- app_assoc; reflexivity). rewrite skipn_app_exact.
    rewrite (sr_tail_ok enc) with (to := to); [|exact Ha|exact Ht|exact M1]. destruct m. cbn in M1, M2, M3. subst. reflexivity.
  - destruct Hh as (w & S & P & O & ->). texts.
    rewrite has_prefix_app_none; [| |left; eexists _, _; split; [reflexivity|not_in]].
    + rewrite cut_paren.
      2:{ intros K. apply O. apply (occurs_esc_string (B " (") w); [|exact K]. split; [right; left; reflexivity|]. intros c Hc. repeat (destruct Hc as [<-|Hc]; [not_in|]). destruct Hc. }
      steps. rewrite (sr_tail_ok enc) with (to := to); [|exact Ha|exact Ht|exact M1]. destruct m. cbn in M1, M2, M3. subst. reflexivity.
    + rewrite starts_with_prefix in P. apply not_true_is_false in P. transitivity (has_prefix (B "TTH:") w); [|exact P]. apply has_prefix_esc.
      * intros c Hc. apply esc_char_string_plain. repeat (destruct Hc as [<-|Hc]; [not_in|]). destruct Hc.
      * intros c. destruct (esc_char_string_cases c) as [(E & _)|[(_ & E)|[(_ & E)|(_ & E)]]]; rewrite E; [left; reflexivity|right; eexists; reflexivity..].
      * not_in.
Qed.
Lemma sr_slots_ok enc dec m path free total data : path <> [] -> Forall (sr_part enc dec) path ->
  string_unmarshal dec (esc_string (join (B "\") path)) = Ok (join (B "\") path) -> i64 free -> i64 total ->
  sr_slots dec m (join (B "\") path) (format_int free ++ B "/" ++ format_int total) data = sr_hub dec (set_sr_total (set_sr_free (set_sr_path m path) free) total) data.
Proof.
  intros Hp F U I1 I2. destruct (sr_parts _ _ _ F) as (_ & P & Q). unfold sr_slots.
  rewrite esc_string_id in U by (apply P; cbn; tauto). rewrite U.
  change (B "\") with ["\"%byte]. rewrite split_byte_join by assumption. change (B "/" ++ format_int total) with ("/"%byte :: format_int total).
  rewrite cut_app by (apply format_int_notin; [reflexivity|discriminate]). rewrite !atoi_trim_format by (apply i64_is; assumption). reflexivity.
Qed.
Lemma sr_decodes enc dec m p m0 : sr_wire enc dec m p -> sr_to m0 = [] -> sr_hubname m0 = [] -> sr_tth m0 = None -> sr_unmarshal dec m0 p = (m, Ok tt).
Proof.
  intros H T0 H0 TT0. destruct m0 as [f0 p0 d0 s0 fr0 to0 h0 t0 a0 tt0]. cbn in T0, H0, TT0. subst.
  destruct H as [f wf path size free total hub tth ph addr to pt N S Hp F St NS Su I1 I2 Hh Ha Ht|f wf path free total hub tth ph addr to pt N S Hp F St I1 I2 Hh Ha Ht];
    rewrite sep_by_join in *; rewrite <- ?format_dec, <- !format_int_text; texts; unfold sr_unmarshal;
    change (B " ") with [" "%byte]; cbn [app]; (rewrite cut_app by (apply en_no_space; exact S)); steps; destruct (sr_parts _ _ _ F) as (_ & P & _).
  - change [x05] with [sr_sep]. 
    match goal with |- context [cut sr_sep ?x] =>
      replace x with (join (B "\") path ++ sr_sep :: (format_uint size ++ " "%byte :: format_int free ++ B "/" ++ format_int total) ++ sr_sep :: (ph ++ B " (" ++ addr ++ B ")" ++ pt)) by (rewrite <- ?app_assoc; cbn [app]; rewrite <- ?app_assoc; reflexivity) end.
    rewrite cut_app by (apply P; cbn; tauto).
    pose proof (scan_file _ NS) as SC.
    rewrite cut_app.
    2:{ apply in_app_not; [apply format_uint_notin; reflexivity|]. intros [K|K]; [discriminate|]. revert K. apply in_app_not; [apply format_int_notin; [reflexivity|discriminate]|]. apply in_app_not; [not_in|apply format_int_notin; [reflexivity|discriminate]]. }
    rewrite cut_app by apply uint_no_space. rewrite parse_uint_trim_format by exact Su. rewrite (sr_slots_ok enc dec) by assumption.
    destruct (sr_scan (rev (join (B "\") path)) false []) as [[|] [[? ?]|]]; try contradiction;
      rewrite (sr_hub_ok enc dec) with (hub := hub) (tth := tth) (to := to); try assumption; try reflexivity.
  - change [x05] with [sr_sep].
    match goal with |- context [cut sr_sep ?x] =>
      replace x with ((join (B "\") path ++ " "%byte :: (format_int free ++ B "/" ++ format_int total)) ++ sr_sep :: (ph ++ B " (" ++ addr ++ B ")" ++ pt)) by (rewrite <- ?app_assoc; cbn [app]; rewrite <- ?app_assoc; reflexivity) end.
    rewrite cut_app.
    2:{ apply in_app_not; [apply P; cbn; tauto|]. intros [K|K]; [discriminate|]. revert K. apply in_app_not; [apply format_int_notin; [reflexivity|discriminate]|]. apply in_app_not; [not_in|apply format_int_notin; [reflexivity|discriminate]]. }
    assert (NN : forall z, (0 <= z < 2 ^ 63)%Z -> format_int z = format_uint (Z.to_N z)).
    { intros z Hz. unfold format_int. replace (z <? 0)%Z with false by (symmetry; apply Z.ltb_ge; lia). reflexivity. }
    rewrite scan_dir.
    2:{ rewrite !NN by assumption. apply Forall_app. split; [apply digit_slot|]. constructor; [left; reflexivity|apply digit_slot]. }
    2:{ apply in_app_iff. right. left. reflexivity. }
    rewrite (sr_slots_ok enc dec); [|assumption|assumption|assumption|unfold i64; lia|unfold i64; lia].
    rewrite (sr_hub_ok enc dec) with (hub := hub) (tth := tth) (to := to); try assumption; try reflexivity.
Qed.

(** ** SA and SP *)

Lemma encode_40 h : length h = 24 -> option_map (firstn 39) (b32_encode_to (repeat x00 40) h) = b32_encode_to (repeat x00 39) h.
Proof.
  intros H. do 24 (destruct h as [|? h]; [discriminate|]). destruct h; [|discriminate].
  cbn [b32_encode_to length repeat skipn Nat.ltb Nat.leb option_map firstn app map group_values]. reflexivity.
Qed.
Lemma tth_space h t : hash_spelled h t -> marshal_tth_space h = Ok (t ++ B " ").
Proof.
  intros H. apply hash_spelled_iff in H. destruct H as [H ->]. unfold marshal_tth_space.
  pose proof (hash_roundtrips h h H H) as (_ & _ & _ & _ & R & _). pose proof (encode_40 h H) as E. unfold hash_marshal_base32 in *. rewrite R in E.
  change (base32_size + 1) with 40. destruct (b32_encode_to (repeat x00 40) h) as [b|]; [|discriminate]. cbn [option_map] in E.
  change base32_size with 39. assert (E' : firstn 39 b = hash_base32 h) by congruence. rewrite E'. reflexivity.
Qed.
Lemma tth_prefix h t r : hash_spelled h t -> skipn base32_size (t ++ B " " ++ r) = " "%byte :: r /\ firstn base32_size (t ++ B " " ++ r) = t /\ forall h0, length h0 = 24 -> hash_unmarshal_base32 h0 t = (Ok tt, h).
Proof.
  intros H. assert (L : length t = base32_size) by apply H. rewrite <- L, skipn_app_exact, firstn_app_exact. split; [reflexivity|]. split; [reflexivity|].
  intros h0 H0. apply hash_spelled_iff in H. destruct H as [H ->]. apply (hash_roundtrips h h0 H H0).
Qed.
Lemma sa_encodes m p : sa_wire m p -> sa_marshal m = Ok p.
Proof. intros [h t a H]. unfold sa_marshal. cbn [sa_tth sa_address]. rewrite (tth_space _ _ H). cbn [bind]. rewrite <- app_assoc. reflexivity. Qed.
Lemma sa_decodes m p m0 : sa_wire m p -> length (sa_tth m0) = 24 -> sa_unmarshal m0 p = (m, Ok tt).
Proof.
  intros [h t a H] L. destruct (tth_prefix _ _ a H) as (E1 & E2 & E3). unfold sa_unmarshal. rewrite E1, E2, (E3 _ L). reflexivity.
Qed.
Lemma sp_encodes enc dec m p : sp_wire enc dec m p -> sp_marshal enc m = Ok p.
Proof. intros [h t u w H N]. texts. unfold sp_marshal. cbn [sp_tth sp_user]. rewrite (tth_space _ _ H). steps. rewrite <- app_assoc. reflexivity. Qed.
Lemma sp_decodes enc dec m p m0 : sp_wire enc dec m p -> length (sp_tth m0) = 24 -> sp_unmarshal dec m0 p = (m, Ok tt).
Proof.
  intros [h t u w H N] L. texts. destruct (tth_prefix _ _ (esc_name w) H) as (E1 & E2 & E3). unfold sp_unmarshal. rewrite E1, E2, (E3 _ L). rewrite beq_refl. steps. reflexivity.
Qed.
