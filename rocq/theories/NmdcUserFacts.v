(** Facts about MyINFO. *)
From Verif Require Import Base BaseFacts Num NumFacts Utf8 Utf8Facts NmdcText NmdcTextFacts NmdcChat NmdcUser SpecText SpecNmdc NmdcMsgFacts NmdcChatFacts NmdcHubFacts NmdcFilesFacts.
From Coq Require Import Lia.

Lemma map_set_new k v l : ~ In k (map fst l) -> map_set k v l = l ++ [(k, v)].
Proof.
  induction l as [|[k' v'] l IH]; cbn; intros H; [reflexivity|].
  replace (bytes_eqb k k') with false; [rewrite IH by tauto; reflexivity|].
  symmetry. apply bytes_eqb_false. intros ->. tauto.
Qed.

Definition extra_field (kv : bytes * bytes) : bytes := fst kv ++ ":"%byte :: snd kv.
Lemma byte_string_low c : (b2n c <= 90)%N -> byte_string c = [c] /\ upper_key c = c.
Proof.
  intros H. pose proof (forall_byte (fun c => negb (b2n c <=? 90)%N || (bytes_eqb (byte_string c) [c] && beq (upper_key c) c))%bool eq_refl c) as K. cbv beta in K.
  replace (b2n c <=? 90)%N with true in K by (symmetry; apply N.leb_le; exact H). cbn [negb orb] in K. apply andb_prop in K. destruct K as [K1 K2].
  apply bytes_eqb_true in K1. apply beq_true in K2. auto.
Qed.
Lemma tag_value_extra m k v : extra_key k -> ~ In k (map fst (mi_extra m)) ->
  tag_value m k v = (set_mi_extra m (mi_extra m ++ [(k, v)]), Ok tt).
Proof.
  intros (H1 & _ & _ & H2) H3. destruct k as [|c [|c' k]]; [contradiction| |].
  - destruct (H2 c eq_refl) as [L V]. destruct (byte_string_low c L) as [E1 E2]. unfold tag_value. rewrite E2, E1.
    assert (K : forall x, In x (B "VMHS") -> beq c x = false).
    { intros x Hx. apply not_true_is_false. rewrite beq_true. intros ->. contradiction. }
    rewrite !K by (cbn; tauto). rewrite map_set_new by exact H3. reflexivity.
  - cbn [tag_value]. rewrite map_set_new by exact H3. reflexivity.
Qed.
Lemma tag_extras extra : forall m cl, NoDup (map fst (mi_extra m ++ extra)) ->
  Forall (fun kv => extra_key (fst kv) /\ tag_clean (snd kv)) extra ->
  tag_fields m cl false (map extra_field extra) = (set_mi_extra m (mi_extra m ++ extra), cl, Ok tt).
Proof.
  induction extra as [|[k v] extra IH]; intros m cl ND F.
  - cbn. rewrite app_nil_r. destruct m. reflexivity.
  - inversion F as [|? ? [Hk Hv] F']; subst. cbn [fst snd] in *. cbn [map]. unfold extra_field at 1. cbn [fst snd].
    destruct k as [|c k]; [destruct Hk as [[] _]; reflexivity|]. cbn [tag_fields app].
    change (c :: k ++ ":"%byte :: v) with ((c :: k) ++ ":"%byte :: v). rewrite cut_app by apply Hk.
    rewrite tag_value_extra; [|exact Hk|].
    + rewrite IH; [| |exact F'].
      * destruct m. cbn. rewrite <- app_assoc. reflexivity.
      * destruct m. cbn in *. rewrite <- app_assoc. exact ND.
    + intros K. rewrite map_app in ND. cbn [map fst] in ND. apply NoDup_remove_2 in ND. apply ND. apply in_app_iff. left. exact K.
Qed.

Lemma concat_extra extra : concat (map (fun kv => B "," ++ fst kv ++ B ":" ++ snd kv) extra) = extra_text extra.
Proof. induction extra as [|kv extra IH]; [reflexivity|]. cbn [map concat]. rewrite IH. reflexivity. Qed.
Lemma split_extra a extra : ~ In ","%byte a -> Forall (fun kv => extra_key (fst kv) /\ tag_clean (snd kv)) extra ->
  split_byte "," (a ++ extra_text extra) = a :: map extra_field extra.
Proof.
  revert a. induction extra as [|[k v] extra IH]; intros a Ha F.
  - cbn [extra_text flat_map map]. rewrite app_nil_r. apply split_byte_notin. exact Ha.
  - inversion F as [|? ? [Hk Hv] F']; subst. unfold extra_text. cbn [flat_map fst snd] in *. change (B "," ++ k ++ B ":" ++ v) with (","%byte :: extra_field (k, v)).
    cbn [app]. rewrite split_byte_app by exact Ha. cbn [map]. f_equal. apply (IH (extra_field (k, v))); [|exact F'].
    unfold extra_field. cbn [fst snd]. apply in_app_not; [apply Hk|]. intros [K|K]; [discriminate|]. revert K. apply Hv.
Qed.
Lemma extra_no c extra : In c [","%byte; "<"%byte; "$"%byte] -> c <> ","%byte ->
  Forall (fun kv => extra_key (fst kv) /\ tag_clean (snd kv)) extra -> ~ In c (extra_text extra).
Proof.
  intros H Hc F K. apply in_flat_map in K. destruct K as ([k v] & Hk & K). rewrite Forall_forall in F. destruct (F _ Hk) as [[_ [(A1 & A2 & A3) _]] (B1 & B2 & B3)]. cbn [fst snd] in *.
  destruct H as [<-|[<-|[<-|[]]]]; [contradiction| |]; revert K; (apply in_app_not; [not_in|]); (apply in_app_not; [assumption|]); (apply in_app_not; [not_in|assumption]).
Qed.

Definition hubs_text (a b c : Z) : bytes := format_int a ++ B "/" ++ format_int b ++ B "/" ++ format_int c.
Lemma int_no c z : is_digit c = false -> c <> "-"%byte -> ~ In c (format_int z).
Proof. intros. apply format_int_notin; assumption. Qed.
Lemma hubs_no c a b d : is_digit c = false -> c <> "-"%byte -> c <> "/"%byte -> ~ In c (hubs_text a b d).
Proof.
  intros H1 H2 H3. unfold hubs_text. repeat (apply in_app_not; [first [apply int_no; assumption|intros K; cbn in K; destruct K as [K|[]]; congruence]|]). apply int_no; assumption.
Qed.
Lemma hubs_split a b c : contains_byte "/" (hubs_text a b c) = true /\ split_byte "/" (hubs_text a b c) = [format_int a; format_int b; format_int c] /\ hubs_text a b c <> [].
Proof.
  unfold hubs_text. split; [|split].
  - apply contains_byte_spec. apply in_app_iff. right. left. reflexivity.
  - change (B "/" ++ format_int b ++ B "/" ++ format_int c) with ("/"%byte :: format_int b ++ "/"%byte :: format_int c).
    rewrite !split_byte_app by (apply int_no; [reflexivity|discriminate]). rewrite split_byte_notin by (apply int_no; [reflexivity|discriminate]). reflexivity.
  - destruct (format_int a); discriminate.
Qed.

(** The standard fields in front of the extra ones. *)
Lemma tag_std m cl v mode hn hr ho sl rest : i64 hn -> i64 hr -> i64 ho -> i64 sl ->
  tag_fields m cl true ((B "V:" ++ v) :: (B "M:" ++ [mode]) :: (B "H:" ++ hubs_text hn hr ho) :: (B "S:" ++ format_int sl) :: rest) =
  tag_fields (set_mi_slots (set_mi_hubs_op (set_mi_hubs_reg (set_mi_hubs_normal (set_mi_mode (set_mi_version m v) mode) hn) hr) ho) sl) cl false rest.
Proof.
  intros I1 I2 I3 I4. destruct (hubs_split hn hr ho) as (E1 & E2 & E3).
  change (B "V:" ++ v) with ("V"%byte :: ":"%byte :: v). change (B "M:" ++ [mode]) with ("M"%byte :: ":"%byte :: [mode]).
  change (B "H:" ++ hubs_text hn hr ho) with ("H"%byte :: ":"%byte :: hubs_text hn hr ho). change (B "S:" ++ format_int sl) with ("S"%byte :: ":"%byte :: format_int sl).
  assert (C : forall c v, beq c ":" = false -> cut ":" (c :: ":"%byte :: v) = Some ([c], v)).
  { intros c w H. apply (cut_app ":" [c] w). intros [K|[]]. subst c. discriminate. }
  cbn [tag_fields]. rewrite !C by reflexivity.
  change (tag_value m ["V"%byte] v) with (set_mi_version m v, @Ok unit tt). cbv iota.
  change (tag_value (set_mi_version m v) ["M"%byte] [mode]) with (set_mi_mode (set_mi_version m v) mode, @Ok unit tt). cbv iota.
  assert (H : forall m, tag_value m ["H"%byte] (hubs_text hn hr ho) = (set_mi_hubs_op (set_mi_hubs_reg (set_mi_hubs_normal m hn) hr) ho, Ok tt)).
  { intros m1. unfold tag_value. change (upper_key "H") with "H"%byte. change (beq "H" "V") with false. change (beq "H" "M") with false. change (beq "H" "H") with true. cbv iota.
    rewrite E1, E2. destruct (hubs_text hn hr ho); [contradiction|]. rewrite !atoi_trim_format by (apply i64_is; assumption). reflexivity. }
  rewrite H. cbv iota.
  assert (S : forall m, tag_value m ["S"%byte] (format_int sl) = (set_mi_slots m sl, Ok tt)).
  { intros m1. unfold tag_value. change (upper_key "S") with "S"%byte. change (beq "S" "V") with false. change (beq "S" "M") with false. change (beq "S" "H") with false. change (beq "S" "S") with true. cbv iota.
    rewrite atoi_trim_format by (apply i64_is; assumption). reflexivity. }
  rewrite S. reflexivity.
Qed.

Definition tag_body cl v mode hn hr ho sl extra : bytes :=
  cl ++ B " V:" ++ v ++ B ",M:" ++ [mode] ++ B ",H:" ++ hubs_text hn hr ho ++ B ",S:" ++ format_int sl ++ extra_text extra.
Lemma cut_version a r : ~ occurs (B " V:") a -> cut_seq (B " V:") (a ++ B " V:" ++ r) = Some (a, r).
Proof.
  intros H. apply cut_seq_before; [discriminate|]. intros x y -> Hy. apply not_true_is_false. intros P.
  apply has_prefix_spec in P. destruct P as [q P].
  assert (Hs : ~ has_prefix (B " V:") y = true).
  { intros K. apply has_prefix_spec in K. destruct K as [z ->]. apply H. exists x, z. reflexivity. }
  destruct y as [|c0 [|c1 [|c2 y]]]; cbn in P; [contradiction|discriminate P| |].
  - discriminate P.
  - injection P as -> -> -> P. apply Hs. reflexivity.
Qed.
Lemma unmarshal_tag_ok m cl v mode hn hr ho sl extra : ~ occurs (B " V:") cl -> tag_clean v -> tag_clean [mode] ->
  i64 hn -> i64 hr -> i64 ho -> i64 sl -> NoDup (map fst extra) -> Forall (fun kv => extra_key (fst kv) /\ tag_clean (snd kv)) extra ->
  unmarshal_tag m (tag_body cl v mode hn hr ho sl extra) =
  (set_mi_client (set_mi_extra (set_mi_slots (set_mi_hubs_op (set_mi_hubs_reg (set_mi_hubs_normal (set_mi_mode (set_mi_version m v) mode) hn) hr) ho) sl) extra) cl, Ok tt).
Proof.
  intros Hc Hv Hm I1 I2 I3 I4 ND F. unfold unmarshal_tag, tag_body. rewrite cut_version by exact Hc. cbv iota.
  match goal with |- context [split_byte "," ?x] =>
    replace x with ((B "V:" ++ v) ++ ","%byte :: (B "M:" ++ [mode]) ++ ","%byte :: (B "H:" ++ hubs_text hn hr ho) ++ ","%byte :: (B "S:" ++ format_int sl) ++ extra_text extra) by (rewrite <- !app_assoc; reflexivity) end.
  assert (N1 : ~ In ","%byte (B "V:" ++ v)) by (apply in_app_not; [not_in|apply Hv]).
  assert (N2 : ~ In ","%byte (B "M:" ++ [mode])) by (apply in_app_not; [not_in|apply Hm]).
  assert (N3 : ~ In ","%byte (B "H:" ++ hubs_text hn hr ho)) by (apply in_app_not; [not_in|apply hubs_no; [reflexivity|discriminate..]]).
  assert (N4 : ~ In ","%byte (B "S:" ++ format_int sl)) by (apply in_app_not; [not_in|apply int_no; [reflexivity|discriminate]]).
  rewrite !split_byte_app by assumption. rewrite split_extra by assumption.
  rewrite tag_std by assumption. rewrite tag_extras; [|exact ND|exact F]. destruct m. reflexivity.
Qed.

Lemma myinfo_encodes enc dec m p : myinfo_wire enc dec m p -> myinfo_marshal enc m = Ok p.
Proof.
  intros [n wn d wd cl v mode hn hr ho slots extra conn wc flag email we share N1 N2 S1 C1 C2 C3 V M1 M2 I1 I2 I3 I4 ND F S2 F1 F2 S3 U].
  unfold myinfo_marshal, tag_text. cbn [mi_name mi_desc mi_client mi_version mi_mode mi_hubs_normal mi_hubs_reg mi_hubs_op mi_slots mi_extra mi_conn mi_flag mi_email mi_share].
  texts. steps. rewrite concat_extra, <- !format_int_text, <- format_dec.
  replace (beq flag x00) with false by (symmetry; apply not_true_is_false; rewrite beq_true; exact F1).
  assert (E : mode_byte mode = mode).
  { unfold mode_byte. replace (beq mode x00) with false by (symmetry; apply not_true_is_false; rewrite beq_true; exact M1). cbn [orb].
    destruct (beq_spec mode " "); congruence. }
  rewrite E. f_equal. repeat (rewrite <- ?app_assoc; cbn [app]). reflexivity.
Qed.

Lemma myinfo_decodes enc dec m p m0 : myinfo_wire enc dec m p -> myinfo_unmarshal dec m0 p = (m, Ok tt).
Proof.
  intros [n wn d wd cl v mode hn hr ho slots extra conn wc flag email we share N1 N2 S1 C1 C2 C3 V M1 M2 I1 I2 I3 I4 ND F S2 F1 F2 S3 Us].
  rewrite concat_extra, <- !format_int_text, <- format_dec. texts. unfold myinfo_unmarshal.
  rewrite has_prefix_app.
  set (f0 := esc_string wd ++ "<"%byte :: tag_body cl v mode hn hr ho slots extra ++ B ">").
  set (f2 := esc_string wc ++ [flag]).
  match goal with |- context [skipn 5 (B "$ALL " ++ ?x)] => change (skipn 5 (B "$ALL " ++ x)) with x;
    replace x with (esc_name wn ++ " "%byte :: f0 ++ "$"%byte :: [" "%byte] ++ "$"%byte :: f2 ++ "$"%byte :: esc_string we ++ "$"%byte :: format_uint share ++ "$"%byte :: []) by
      (subst f0 f2; unfold tag_body, hubs_text; repeat (rewrite <- ?app_assoc; cbn [app]); reflexivity) end.
  rewrite cut_app by (apply en_no_space; exact N2). steps.
  assert (T : forall c, In c (B "<$") -> ~ In c (tag_body cl v mode hn hr ho slots extra ++ B ">")).
  { intros c Hc. destruct V as (_ & V1 & V2), M2 as (_ & Mx & My). unfold tag_body.
    assert (X : ~ In c (extra_text extra)) by (destruct Hc as [<-|[<-|[]]]; apply extra_no; try exact F; try discriminate; cbn; tauto).
    assert (X2 : ~ In c (hubs_text hn hr ho)) by (destruct Hc as [<-|[<-|[]]]; apply hubs_no; try reflexivity; discriminate).
    assert (X3 : ~ In c (format_int slots)) by (destruct Hc as [<-|[<-|[]]]; apply int_no; try reflexivity; discriminate).
    assert (X4 : ~ In c cl /\ ~ In c v /\ ~ In c [mode] /\ ~ In c (B " V:,M:,H:,S:>")).
    { destruct Hc as [<-|[<-|[]]]; repeat split; try assumption; not_in. }
    destruct X4 as (X4 & X5 & X6 & X7). rewrite <- !app_assoc.
    repeat (apply in_app_not; [first [assumption|intros K; apply X7; cbn in K |- *; tauto]|]). intros K. apply X7. cbn in K |- *. tauto. }
  rewrite !split_byte_app.
  - change (split_byte "$" []) with [@nil byte]. unfold myinfo_desc. subst f0. rewrite last_cut_app by (apply T; left; reflexivity).
    destruct (tag_body cl v mode hn hr ho slots extra ++ B ">") as [|t0 t] eqn:Et; [destruct (tag_body cl v mode hn hr ho slots extra); discriminate|].
    rewrite <- Et. change (B ">") with [">"%byte]. rewrite last_is_app, drop_last_app. rewrite beq_refl.
    rewrite unmarshal_tag_ok by assumption.
    steps. unfold myinfo_rest. subst f2. rewrite rev_app_distr. cbn [rev app]. rewrite drop_last_app. steps.
    unfold myinfo_end. steps. destruct (format_cons share) as (c & r & E & _). rewrite E. rewrite <- E. rewrite parse_uint_trim_format by exact Us.
    destruct m0. reflexivity.
  - apply format_uint_notin. reflexivity.
  - apply esc_string_no_dollar.
  - subst f2. apply in_app_not; [apply esc_string_no_dollar|]. intros [K|[]]. contradiction.
  - not_in.
  - subst f0. apply in_app_not; [apply esc_string_no_dollar|]. intros [K|K]; [discriminate|]. revert K. apply T. right. left. reflexivity.
Qed.

Lemma flag_set_iff f g : flag_is_set f g = true <-> exists i, (i < 8)%N /\ N.testbit (b2n f) i = true /\ N.testbit (b2n g) i = true.
Proof.
  unfold flag_is_set. rewrite Bool.negb_true_iff, N.eqb_neq. split.
  - intros Nz. pose proof (N.bit_log2 _ Nz) as L. rewrite N.land_spec, Bool.andb_true_iff in L.
    exists (N.log2 (N.land (b2n f) (b2n g))). split; [|exact L]. destruct L as [L _].
    destruct (N.lt_ge_cases (N.log2 (N.land (b2n f) (b2n g))) 8) as [K|K]; [exact K|exfalso].
    assert (F : (b2n f < 2 ^ 8)%N) by (destruct f; vm_compute; reflexivity).
    rewrite (N.bits_above_log2 (b2n f)) in L; [discriminate|].
    destruct (N.eq_dec (b2n f) 0) as [Z|Z]; [rewrite Z in L; rewrite N.bits_0 in L; discriminate|].
    apply N.log2_lt_pow2 in F; lia.
  - intros (i & _ & A & C) E. assert (K : N.testbit (N.land (b2n f) (b2n g)) i = true) by now rewrite N.land_spec, A, C.
    rewrite E, N.bits_0 in K. discriminate.
Qed.
