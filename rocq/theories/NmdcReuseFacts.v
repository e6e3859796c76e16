(** Decoding into used messages. *)
From Verif Require Import Base BaseFacts Num NumFacts Utf8 NmdcText NmdcTextFacts SpecText SpecHash SpecNmdc NmdcMsgFacts NmdcChat NmdcHub NmdcFiles NmdcUser NmdcMessage
  Base32 Base32Facts Tiger TigerFacts SpecFrame NmdcDecodeFacts.
From Coq Require Import Lia.

(** The same result, and the same value when it is a success. *)
Definition alike {A} (p q : A * res unit) : Prop := snd p = snd q /\ (snd p = Ok tt -> fst p = fst q).
Lemma alike_refl {A} (p : A * res unit) : alike p p. Proof. split; auto. Qed.
Lemma alike_eq {A} (p q : A * res unit) : p = q -> alike p q. Proof. intros ->. apply alike_refl. Qed.
Lemma alike_fail {A} (a b : A) (r : res unit) : r <> Ok tt -> alike (a, r) (b, r). Proof. intros H. split; [reflexivity|]. cbn. contradiction. Qed.
Lemma alike_lift {A} (c : A -> msg) p q : alike p q -> alike (lift c p) (lift c q).
Proof. intros [H K]. split; cbn; [exact H|]. intros E. rewrite (K E). reflexivity. Qed.

Ltac both := repeat match goal with
  | |- alike (match ?r with Ok _ => _ | Err _ => _ | Panic => _ end) (match ?r with Ok _ => _ | Err _ => _ | Panic => _ end) => destruct r; [|apply alike_fail; discriminate|apply alike_fail; discriminate]
  | |- alike (match ?r with Some _ => _ | None => _ end) (match ?r with Some _ => _ | None => _ end) => destruct r as [[? ?]|]; [|apply alike_fail; discriminate]
  | |- alike (if ?b then _ else _) (if ?b then _ else _) => destruct b
  | |- alike (_, Err _) (_, Err _) => apply alike_fail; discriminate
  | |- alike (_, _) (_, _) => apply alike_refl
  end.

Lemma hash_independent h1 h2 s : length h1 = 24 -> length h2 = 24 ->
  fst (hash_unmarshal_base32 h1 s) = fst (hash_unmarshal_base32 h2 s) /\
  (fst (hash_unmarshal_base32 h1 s) = Ok tt -> snd (hash_unmarshal_base32 h1 s) = snd (hash_unmarshal_base32 h2 s)).
Proof.
  intros L1 L2. pose proof (unmarshal_panics h1 s L1) as P1. pose proof (unmarshal_panics h2 s L2) as P2.
  pose proof (unmarshal_agrees h1 s L1) as A1. pose proof (unmarshal_agrees h2 s L2) as A2.
  assert (F : fst (hash_from_base32 h1 s) = fst (hash_from_base32 h2 s) /\ (fst (hash_from_base32 h1 s) = Ok tt -> snd (hash_from_base32 h1 s) = snd (hash_from_base32 h2 s))).
  { unfold hash_from_base32. destruct (b32_decode_string s) as [b [e|]]; [split; [reflexivity|discriminate]|]. destruct (Nat.eqb_spec (length b) hash_size) as [E|E]; [|split; [reflexivity|discriminate]].
    split; [reflexivity|]. intros _. cbn [snd]. rewrite !skipn_all2 by (rewrite E; change hash_size with 24; lia). reflexivity. }
  destruct (hash_unmarshal_base32 h1 s) as [r1 x1] eqn:E1. destruct (hash_unmarshal_base32 h2 s) as [r2 x2] eqn:E2. cbn [fst snd] in *.
  destruct r1 as [[]|e|].
  - destruct A1 as [A1 B1]; [discriminate|]. assert (r2 <> Panic) by (intros K; apply P2 in K; apply P1 in K; discriminate).
    destruct (A2 H) as [A2' B2]. destruct F as [F1 F2]. split; [congruence|]. intros _. rewrite B1, B2 by congruence. apply F2. congruence.
  - destruct A1 as [A1 B1]; [discriminate|]. assert (r2 <> Panic) by (intros K; apply P2 in K; apply P1 in K; discriminate).
    destruct (A2 H) as [A2' B2]. destruct F as [F1 F2]. split; [congruence|]. discriminate.
  - assert (r2 = Panic) by (apply P2, P1; reflexivity). split; [congruence|discriminate].
Qed.

(** ** Messages with loops *)

Lemma flags_snd f : forall m1 m2 d, snd (adcget_flags f m1 d) = snd (adcget_flags f m2 d).
Proof.
  induction f as [|f IH]; intros m1 m2 [|c d]; cbn [adcget_flags]; try reflexivity. destruct (cut_or_all (c :: d)) as [fl r].
  destruct (bytes_eqb fl (B "ZL1")); [apply IH|]. destruct (has_prefix (B "DB") fl); [|apply IH]. destruct (parse_uint_trim (skipn 2 fl)); try reflexivity. apply IH.
Qed.
Lemma hubinfo_snd dec n l : forall i m1 m2, snd (hubinfo_fields dec n i m1 l) = snd (hubinfo_fields dec n i m2 l).
Proof.
  induction l as [|f l IH]; intros i m1 m2; cbn [hubinfo_fields]; [reflexivity|].
  do 11 (destruct i as [|i]; [cbn [hubinfo_field];
    repeat match goal with |- context [match ?x with Ok _ => _ | Err _ => _ | Panic => _ end] => first [destruct x; try reflexivity] | |- context [match last_cut ?a ?b with _ => _ end] => destruct (last_cut a b) as [[? ?]|] end; apply IH|]).
  cbn [hubinfo_field]. apply IH.
Qed.
Lemma tag_value_snd m1 m2 k v : snd (tag_value m1 k v) = snd (tag_value m2 k v).
Proof.
  unfold tag_value. destruct k as [|c [|? ?]]; try reflexivity.
  destruct (beq (upper_key c) "V"); [reflexivity|]. destruct (beq (upper_key c) "M"); [reflexivity|].
  destruct (beq (upper_key c) "H").
  - destruct v as [|v0 v]; [reflexivity|]. destruct (contains_byte "/" (v0 :: v)).
    + destruct (split_byte "/" (v0 :: v)) as [|a [|b [|d [|? ?]]]]; try reflexivity. destruct (atoi_trim a); try reflexivity. destruct (atoi_trim b); try reflexivity. destruct (atoi_trim d); reflexivity.
    + destruct (atoi_trim (v0 :: v)); reflexivity.
  - destruct (beq (upper_key c) "S"); [destruct (atoi_trim v); reflexivity|reflexivity].
Qed.
Lemma tag_fields_snd l : forall m1 m2 cl first, let p := tag_fields m1 cl first l in let q := tag_fields m2 cl first l in snd p = snd q /\ snd (fst p) = snd (fst q).
Proof.
  induction l as [|f l IH]; intros m1 m2 cl first; cbn [tag_fields]; [auto|]. destruct f as [|c f]; [apply IH|].
  destruct (cut ":" (c :: f)) as [[[|k ks] v]|]; [auto| |destruct first; [apply IH|auto]].
  pose proof (tag_value_snd m1 m2 (k :: ks) v) as T. destruct (tag_value m1 (k :: ks) v) as [m1' r1]. destruct (tag_value m2 (k :: ks) v) as [m2' r2]. cbn [snd] in T. subst r2.
  destruct r1; [apply IH|auto|auto].
Qed.
(** The fields of the tag do not depend on the text around it. *)
Definition retext (m : myinfo) (d e : bytes) : myinfo := set_mi_email (set_mi_desc m d) e.
Lemma tag_value_retext m d e k v : tag_value (retext m d e) k v = (retext (fst (tag_value m k v)) d e, snd (tag_value m k v)).
Proof.
  unfold tag_value. destruct m. destruct k as [|c [|? ?]]; try reflexivity.
  destruct (beq (upper_key c) "V"); [reflexivity|]. destruct (beq (upper_key c) "M"); [reflexivity|].
  destruct (beq (upper_key c) "H").
  - destruct v as [|v0 v]; [reflexivity|]. destruct (contains_byte "/" (v0 :: v)).
    + destruct (split_byte "/" (v0 :: v)) as [|a [|b [|g [|? ?]]]]; try reflexivity. destruct (atoi_trim a); try reflexivity. destruct (atoi_trim b); try reflexivity. destruct (atoi_trim g); reflexivity.
    + destruct (atoi_trim (v0 :: v)); reflexivity.
  - destruct (beq (upper_key c) "S"); [destruct (atoi_trim v); reflexivity|reflexivity].
Qed.
Lemma tag_fields_retext l : forall m d e cl first, tag_fields (retext m d e) cl first l =
  (retext (fst (fst (tag_fields m cl first l))) d e, snd (fst (tag_fields m cl first l)), snd (tag_fields m cl first l)).
Proof.
  induction l as [|f l IH]; intros m d e cl first; cbn [tag_fields]; [reflexivity|]. destruct f as [|c f]; [apply IH|].
  destruct (cut ":" (c :: f)) as [[[|k ks] v]|]; [reflexivity| |destruct first; [apply IH|reflexivity]].
  rewrite tag_value_retext. destruct (tag_value m (k :: ks) v) as [m1 r1]. cbn [fst snd]. destruct r1; [apply IH|reflexivity|reflexivity].
Qed.

(** ** All messages *)

(** Whether a line is accepted does not depend on the old value. *)
Lemma acceptance_independent dec m1 m2 d : same_kind m1 m2 -> sized m1 -> sized m2 -> snd (msg_unmarshal dec m1 d) = snd (msg_unmarshal dec m2 d).
Proof.
  Local Ltac sides := repeat match goal with
    | |- snd (match ?r with Ok _ => _ | Err _ => _ | Panic => _ end) = snd (match ?r with Ok _ => _ | Err _ => _ | Panic => _ end) => destruct r; try reflexivity
    | |- snd (match ?r with Some _ => _ | None => _ end) = snd (match ?r with Some _ => _ | None => _ end) => destruct r as [[? ?]|]; try reflexivity
    | |- snd (if ?b then _ else _) = snd (if ?b then _ else _) => destruct b; try reflexivity
    end.
  intros K S1 S2. destruct m1, m2; cbn [same_kind] in K; try contradiction; cbn [msg_unmarshal lift snd]; try reflexivity.
  - unfold name_msg_unmarshal. sides.
  - unfold string_msg_unmarshal. sides.
  - unfold err_unmarshal. sides.
  - unfold names_unmarshal. destruct (trim_suffix _ d); [reflexivity|]. sides.
  - unfold chat_unmarshal, chat_text. destruct d as [|c d]; sides. destruct a as [i off]. sides.
  - unfold pm_unmarshal. sides.
  - unfold mcto_unmarshal. sides.
  - unfold ucmd_unmarshal. destruct (splitn_byte 3 " " (trim_white d)) as [|a0 [|a1 arr]]; try reflexivity. sides.
    destruct arr as [|v arr]; [reflexivity|]. destruct (cut "$" v) as [[[|c0 p] r]|]; try reflexivity. destruct (unmarshal_path _ _ _) as [p' r']. sides.
  - unfold ctm_unmarshal. sides; repeat (match goal with |- context [let '(_, _) := if ?b then _ else _ in _] => destruct b end); reflexivity.
  - unfold rctm_unmarshal. sides.
  - unfold adcget_unmarshal. sides. match goal with |- context [cut_or_all ?x] => destruct (cut_or_all x) as [ln r] end. destruct (bytes_eqb ln (B "-1")); [apply flags_snd|]. sides. apply flags_snd.
  - unfold adcsnd_unmarshal. sides. match goal with |- context [cut_or_all ?x] => destruct (cut_or_all x) as [ln r] end. sides; destruct r; try reflexivity; sides.
  - unfold direction_unmarshal. sides.
  - unfold hubinfo_unmarshal. apply hubinfo_snd.
  - unfold search_unmarshal. sides.
    all: unfold search_string; match goal with |- context [splitn_byte 5 "?" ?x] => destruct (splitn_byte 5 "?" x) as [|f0 [|f1 [|f2 [|f3 [|f4 [|? ?]]]]]] end; try reflexivity; sides.
    all: unfold search_size; destruct f2 as [|c f2]; [|destruct (beq c "-"); [destruct (parse_uint_trim f2); cbn [bind]; try reflexivity|destruct (parse_uint_trim (c :: f2)); cbn [bind]; try reflexivity]].
    all: sides; unfold search_what; cbn [se_dtype set_se_dtype]; sides; destruct (new_tth _); reflexivity.
  - unfold sr_unmarshal. sides.
    assert (T1 : forall m1 m2 d, snd (sr_tail dec m1 d) = snd (sr_tail dec m2 d)).
    { clear. intros. unfold sr_tail. sides. match goal with |- context [match ?x with [] => _ | _ => _ end] => destruct x as [|c [|? ?]] end; try reflexivity. sides. }
    assert (T2 : forall m1 m2 d, snd (sr_hub dec m1 d) = snd (sr_hub dec m2 d)).
    { clear - T1. intros. unfold sr_hub. destruct (has_prefix (B "TTH:") d); [destruct (has_prefix (B " (") _); [|reflexivity]; destruct (new_tth _) as [t r]; sides; apply T1|]. sides. apply T1. }
    assert (T3 : forall m1 m2 p s d, snd (sr_slots dec m1 p s d) = snd (sr_slots dec m2 p s d)).
    { clear - T2. intros. unfold sr_slots. sides. apply T2. }
    match goal with |- context [sr_scan ?x false []] => destruct (sr_scan x false []) as [[|] [[? ?]|]] end; [apply T3| | |]; sides; apply T3.
  - unfold sa_unmarshal. destruct (skipn base32_size d) as [|c a]; [reflexivity|]. sides. cbn [sized] in S1, S2.
    destruct (hash_independent _ _ (firstn base32_size d) S1 S2) as [H _].
    destruct (hash_unmarshal_base32 (sa_tth m) _) as [r1 h1]. destruct (hash_unmarshal_base32 (sa_tth m0) _) as [r2 h2]. cbn [fst] in H. subst r2. sides.
  - unfold sp_unmarshal. destruct (skipn base32_size d) as [|c a]; [reflexivity|]. sides. cbn [sized] in S1, S2.
    destruct (hash_independent _ _ (firstn base32_size d) S1 S2) as [H _].
    destruct (hash_unmarshal_base32 (sp_tth m) _) as [r1 h1]. destruct (hash_unmarshal_base32 (sp_tth m0) _) as [r2 h2]. cbn [fst] in H. subst r2. sides.
  - unfold myinfo_unmarshal. sides. match goal with |- context [split_byte "$" ?x] => destruct (split_byte "$" x) as [|f0 [|f1 [|f2 [|f3 [|f4 [|f5 [|? ?]]]]]]] end; try reflexivity.
    assert (D : forall m1 m2, snd (myinfo_desc dec m1 f0) = snd (myinfo_desc dec m2 f0)).
    { clear. intros. unfold myinfo_desc. destruct (last_cut "<" f0) as [[ds tg]|].
      - destruct tg as [|t0 tg]; [reflexivity|]. unfold unmarshal_tag.
        match goal with |- context [match cut_seq (B " V:") ?t with _ => _ end] => generalize t end. intros t.
        destruct (match cut_seq (B " V:") t with Some (c, t0) => (c, B "V:" ++ t0) | None => match cut_seq (B " v:") t with Some (c, t0) => (c, B "v:" ++ t0) | None => ([], t) end end) as [cl tt'].
        destruct (tag_fields_snd (split_byte "," tt') (set_mi_extra (set_mi_mode m1 x00) []) (set_mi_extra (set_mi_mode m2 x00) []) cl true) as [T1 T2].
        destruct (tag_fields (set_mi_extra (set_mi_mode m1 x00) []) cl true _) as [[x1 c1] e1]. destruct (tag_fields (set_mi_extra (set_mi_mode m2 x00) []) cl true _) as [[x2 c2] e2]. cbn [fst snd] in T1, T2. subst e2 c2.
        destruct e1; try reflexivity. destruct (string_unmarshal dec ds); reflexivity.
      - destruct (string_unmarshal dec f0); reflexivity. }
    specialize (D (set_mi_name m a) (set_mi_name m0 a)).
    destruct (myinfo_desc dec (set_mi_name m a) f0) as [x1 r1]. destruct (myinfo_desc dec (set_mi_name m0 a) f0) as [x2 r2]. cbn [snd] in D. subst r2. destruct r1 as [tg|e|]; try reflexivity.
    unfold myinfo_rest, myinfo_end. destruct f1 as [|md [|? ?]]; try reflexivity. destruct (rev f2); sides; destruct f4; reflexivity.
Qed.

(** Without old data in the fields a line may leave alone, the result is the same. *)
Lemma reuse_cleared dec m1 m2 d : same_kind m1 m2 -> sized m1 -> sized m2 -> cleared m1 -> cleared m2 -> alike (msg_unmarshal dec m1 d) (msg_unmarshal dec m2 d).
Proof.
  intros K S1 S2 U1 U2. destruct m1, m2; cbn [same_kind] in K; try contradiction; cbn [msg_unmarshal]; try subst; try apply alike_lift; try apply alike_refl.
  - unfold name_msg_unmarshal. both.
  - unfold string_msg_unmarshal. both.
  - cbn in U1, U2. subst. apply alike_refl.
  - unfold names_unmarshal. destruct (trim_suffix _ d); [apply alike_refl|]. both.
  - unfold chat_unmarshal, chat_text. destruct m as [n1 t1], m0 as [n2 t2]. cbn in U1, U2. subst. destruct d as [|c d]; both; try (destruct a as [i off]; both).
  - unfold pm_unmarshal. both.
  - unfold mcto_unmarshal. both.
  - unfold ucmd_unmarshal. destruct m as [t1 c1 p1 k1], m0 as [t2 c2 p2 k2]. cbn in U1, U2. destruct U1, U2. subst.
    destruct (splitn_byte 3 " " (trim_white d)) as [|a0 [|a1 arr]]; both. destruct arr as [|v arr]; [apply alike_refl|].
    destruct (cut "$" v) as [[[|c0 p] r]|]; both. destruct (unmarshal_path _ _ _) as [p' r']. both.
  - unfold ctm_unmarshal. destruct m as [t1 s1 a1 k1 x1], m0 as [t2 s2 a2 k2 x2]. cbn in U1, U2. destruct U1, U2. subst.
    both. match goal with |- context [cut " " ?x] => destruct (cut " " x) as [[ad sc]|] end; [destruct (name_unmarshal dec sc); [|apply alike_fail; discriminate|apply alike_fail; discriminate]|]; cbn [set_ct_targ set_ct_src set_ct_secure set_ct_kind set_ct_address ct_targ ct_src ct_address ct_kind ct_secure]; repeat (match goal with |- context [let '(_, _) := if ?b then _ else _ in _] => destruct b end); apply alike_refl.
  - unfold rctm_unmarshal. both.
  - unfold adcget_unmarshal. destruct m as [t1 i1 s1 l1 z1 d1], m0 as [t2 i2 s2 l2 z2 d2]. cbn in U1, U2. destruct U1, U2. subst.
    both. match goal with |- context [cut_or_all ?x] => destruct (cut_or_all x) as [ln r] end. destruct (bytes_eqb ln (B "-1")); [apply alike_refl|]. both. apply alike_refl.
  - unfold adcsnd_unmarshal. destruct m as [t1 i1 s1 l1 z1], m0 as [t2 i2 s2 l2 z2]. cbn in U1, U2. subst.
    both. match goal with |- context [cut_or_all ?x] => destruct (cut_or_all x) as [ln r] end. both.
  - unfold direction_unmarshal. both.
  - unfold hubinfo_unmarshal. cbn in U1, U2. rewrite U1, U2. generalize (hi_name m) (hi_name m0). intros n1 n2.
    destruct (splitn_byte 13 "$" d) as [|f l] eqn:E; [exfalso; revert E; unfold splitn_byte; destruct (cut "$" d) as [[? ?]|]; discriminate|].
    cbn [hubinfo_fields hubinfo_field]. destruct (string_unmarshal dec f); [apply alike_refl|apply alike_fail; discriminate|apply alike_fail; discriminate].
  - unfold search_unmarshal. destruct m as [a1 u1 r1 x1 s1 d1 p1 t1], m0 as [a2 u2 r2 x2 s2 d2 p2 t2]. cbn in U1, U2. destruct U1 as (? & ? & ? & ? & ?), U2 as (? & ? & ? & ? & ?). subst.
    both.
    all: unfold search_string; match goal with |- context [splitn_byte 5 "?" ?x] => destruct (splitn_byte 5 "?" x) as [|f0 [|f1 [|f2 [|f3 [|f4 [|? ?]]]]]] end; both.
    all: cbn [set_se_user set_se_address set_se_restricted set_se_ismax se_address se_user se_restricted se_ismax se_size se_dtype se_pattern se_tth].
    all: unfold search_size; destruct f2 as [|c f2]; [|destruct (beq c "-"); [destruct (parse_uint_trim f2)|destruct (parse_uint_trim (c :: f2))]]; cbn [bind].
    all: both.
    all: first [apply alike_refl|apply alike_fail; discriminate].
  - unfold sr_unmarshal. destruct m as [f1 p1 i1 s1 r1 o1 h1 t1 a1 to1], m0 as [f2 p2 i2 s2 r2 o2 h2 t2 a2 to2]. cbn in U1, U2. destruct U1 as (? & ? & ?), U2 as (? & ? & ?). subst.
    both. cbn [set_sr_from sr_from sr_path sr_isdir sr_size sr_free sr_total sr_hubname sr_tth sr_hubaddr sr_to].
    assert (T1 : forall m1 m2 d, alike (sr_tail dec m1 d) (sr_tail dec m2 d) \/ True) by auto. clear T1.
    assert (HT : forall fr pt id sz fre tot a1 a2 hn tt dd,
      alike (sr_tail dec (mk_sr fr pt id sz fre tot hn tt a1 []) dd) (sr_tail dec (mk_sr fr pt id sz fre tot hn tt a2 []) dd)).
    { clear. intros. unfold sr_tail. both. match goal with |- context [match ?x with [] => _ | _ => _ end] => destruct x as [|c [|? ?]] end; both. }
    assert (HH : forall fr pt id sz fre tot a1 a2 dd,
      alike (sr_hub dec (mk_sr fr pt id sz fre tot [] None a1 []) dd) (sr_hub dec (mk_sr fr pt id sz fre tot [] None a2 []) dd)).
    { clear - HT. intros. unfold sr_hub. both; [destruct (new_tth _) as [t r]; both; apply HT|apply HT]. }
    assert (HS : forall fr pt1 pt2 id sz f1 t1 f2 t2 a1 a2 p s dd,
      alike (sr_slots dec (mk_sr fr pt1 id sz f1 t1 [] None a1 []) p s dd) (sr_slots dec (mk_sr fr pt2 id sz f2 t2 [] None a2 []) p s dd)).
    { clear - HH. intros. unfold sr_slots. both. apply HH. }
    match goal with |- context [sr_scan ?x false []] => destruct (sr_scan x false []) as [[|] [[? ?]|]] end; [apply HS| | |]; both; apply HS.
  - unfold sa_unmarshal. destruct (skipn base32_size d) as [|c a]; both. cbn [sized] in S1, S2.
    destruct (hash_independent _ _ (firstn base32_size d) S1 S2) as [H H'].
    destruct (hash_unmarshal_base32 (sa_tth m) _) as [r1 h1]. destruct (hash_unmarshal_base32 (sa_tth m0) _) as [r2 h2]. cbn [fst snd] in H, H'. subst r2.
    destruct r1 as [[]|e|]; [rewrite H' by reflexivity; destruct m, m0; both|apply alike_fail; discriminate|apply alike_fail; discriminate].
  - unfold sp_unmarshal. destruct (skipn base32_size d) as [|c a]; both. cbn [sized] in S1, S2.
    destruct (hash_independent _ _ (firstn base32_size d) S1 S2) as [H H'].
    destruct (hash_unmarshal_base32 (sp_tth m) _) as [r1 h1]. destruct (hash_unmarshal_base32 (sp_tth m0) _) as [r2 h2]. cbn [fst snd] in H, H'. subst r2.
    destruct r1 as [[]|e|]; [rewrite H' by reflexivity; destruct m, m0; both|apply alike_fail; discriminate|apply alike_fail; discriminate].
  - unfold myinfo_unmarshal. cbn in U1, U2. rewrite U1, U2. generalize (mi_name m) (mi_name m0) (mi_desc m) (mi_desc m0) (mi_mode m) (mi_mode m0) (mi_email m) (mi_email m0). clear. intros n1 n2 d1 d2 o1 o2 e1 e2.
    both. match goal with |- context [split_byte "$" ?x] => destruct (split_byte "$" x) as [|f0 [|f1 [|f2 [|f3 [|f4 [|f5 [|? ?]]]]]]] end; both. unfold set_mi_name. cbn [mi_name mi_desc mi_client mi_version mi_mode mi_hubs_normal mi_hubs_reg mi_hubs_op mi_slots mi_extra mi_conn mi_flag mi_email mi_share].
    set (q := mk_myinfo a [] [] [] x00 0 0 0 0 [] [] x00 [] 0).
    assert (D : forall dd oo ee, exists x r, myinfo_desc dec q f0 = (x, r) /\ exists z, myinfo_desc dec (mk_myinfo a dd [] [] oo 0 0 0 0 [] [] x00 ee 0) f0 = (z, r) /\ (forall bb, r = Ok bb -> z = set_mi_email x ee)).
    { clear. intros dd oo ee. unfold myinfo_desc. change (set_mi_mode (mk_myinfo a dd [] [] oo 0 0 0 0 [] [] x00 ee 0) x00) with (retext q dd ee). change (set_mi_mode q x00) with q.
      destruct (last_cut "<" f0) as [[ds tg]|].
      - destruct tg as [|t0 tg]; [eexists; eexists; split; [reflexivity|eexists; split; [reflexivity|discriminate]]|]. unfold unmarshal_tag.
        match goal with |- context [match cut_seq (B " V:") ?t with _ => _ end] => generalize t end. intros t.
        destruct (match cut_seq (B " V:") t with Some (c, t0) => (c, B "V:" ++ t0) | None => match cut_seq (B " v:") t with Some (c, t0) => (c, B "v:" ++ t0) | None => ([], t) end end) as [cl tt'].
        change (set_mi_extra (retext q dd ee) []) with (retext (set_mi_extra q []) dd ee). rewrite tag_fields_retext.
        destruct (tag_fields (set_mi_extra q []) cl true _) as [[x c1] r]. cbn [fst snd].
        destruct r; [|eexists; eexists; split; [reflexivity|eexists; split; [reflexivity|discriminate]] ..].
        destruct (string_unmarshal dec ds); [|eexists; eexists; split; [reflexivity|eexists; split; [reflexivity|discriminate]] ..].
        eexists; eexists; split; [reflexivity|eexists; split; [reflexivity|intros ? _; reflexivity]].
      - destruct (string_unmarshal dec f0); eexists; eexists; (split; [reflexivity|eexists; split; [reflexivity|intros ? ?; first [discriminate|reflexivity]]]). }
    destruct (D d1 o1 e1) as (x & r & E0 & z1 & E1 & Z1). destruct (D d2 o2 e2) as (x' & r' & E0' & z2 & E2 & Z2). rewrite E0 in E0'. injection E0' as <- <-. rewrite E1, E2.
    destruct r as [tg|e|]; [|apply alike_fail; discriminate|apply alike_fail; discriminate]. rewrite (Z1 tg eq_refl), (Z2 tg eq_refl). clear. destruct x.
    unfold myinfo_rest, myinfo_end. destruct f1 as [|md [|? ?]]; both. destruct tg; destruct (rev f2); both; destruct f4; apply alike_refl.
Qed.
Lemma new_message_cleared t : cleared (new_message t) /\ sized (new_message t).
Proof.
  assert (H : forall l, Forall (fun m => cleared m /\ sized m) l -> cleared (lookup l t) /\ sized (lookup l t)).
  { induction l as [|m l IH]; intros H; cbn [lookup]; [split; exact I|]. inversion H; subst. destruct (bytes_eqb (msg_type m) t); [assumption|auto]. }
  apply H. unfold registered. repeat (constructor; [split; cbn; try tauto; repeat split; reflexivity|]). constructor.
Qed.
