(** Facts about chat lines, file lengths, keys and extension sets. *)
From Verif Require Import Base BaseFacts Num NumFacts NumSpec Utf8 Utf8Facts NmdcText NmdcTextFacts SpecText SpecHash SpecNmdc NmdcMsgFacts NmdcChat NmdcHub NmdcFiles NmdcUser NmdcMessage
  Base32 Base32Facts Tiger TigerFacts NmdcChatFacts NmdcHubFacts NmdcFilesFacts NmdcUserFacts SpecFrame NmdcFrameFacts NmdcDecodeFacts.
From Coq Require Import Lia Permutation Sorted.

(** ** Chat lines *)

Lemma index_stop_nth s j : index_stop s = Some j -> j < length s /\ stop_char (nth j s x00) = true.
Proof.
  revert j. induction s as [|c s IH]; intros j H; [discriminate|]. cbn [index_stop] in H. destruct (stop_char c) eqn:E.
  - injection H as <-. cbn. split; [lia|exact E].
  - destruct (index_stop s) as [i|]; [|discriminate]. injection H as <-. destruct (IH i eq_refl) as [H1 H2]. cbn. split; [lia|exact H2].
Qed.
Lemma nth_split' (s : bytes) i d : i < length s -> s = firstn i s ++ nth i s d :: skipn (S i) s.
Proof.
  revert i. induction s as [|c s IH]; intros [|i] H; cbn in *; try lia; [reflexivity|]. f_equal. apply IH. lia.
Qed.
Lemma name_end_ok f : forall d base i off, length d - base < f -> base < length d -> (0 < base -> nth (base - 1) d x00 = ">"%byte) ->
  ~ (exists a b, d = a ++ B ">" ++ b ++ B ">") -> name_end f d base = Ok (i, off) ->
  i < length d /\ nth i d x00 = ">"%byte /\
  (off = 1 \/ exists r sz, decode_rune (skipn (i + 1) d) = (r, sz) /\ is_space_rune r = true /\ off = sz + 1).
Proof.
  induction f as [|f IH]; intros d base i off Hf Hb Hp HB H; [lia|]. cbn [name_end] in H.
  destruct (Nat.ltb_spec base (length d)); [|lia].
  assert (Back : forall e, (if (base =? 0)%nat then Err e else Ok (base - 1, 1)) = Ok (i, off) ->
    i < length d /\ nth i d x00 = ">"%byte /\ (off = 1 \/ exists r sz, decode_rune (skipn (i + 1) d) = (r, sz) /\ is_space_rune r = true /\ off = sz + 1)).
  { intros e K. destruct (Nat.eqb_spec base 0); [discriminate|]. injection K as <- <-. split; [lia|]. split; [apply Hp; lia|left; reflexivity]. }
  destruct (index_stop (skipn base d)) as [j|] eqn:E; [|eapply Back; exact H].
  apply index_stop_nth in E. destruct E as [Hj _]. rewrite skipn_length in Hj.
  destruct (beq (nth (base + j) d x00) ">") eqn:G; [|eapply Back; exact H]. apply beq_true in G.
  destruct (Nat.eqb_spec (base + j) (length d - 1)) as [L|L].
  - injection H as <- <-. destruct (Nat.eq_dec base 0) as [->|Nb].
    + cbn [Nat.add] in *. split; [lia|]. split; [exact G|left; reflexivity].
    + exfalso. apply HB. specialize (Hp ltac:(lia)).
      pose proof (nth_split' d (base - 1) x00 ltac:(lia)) as S1. rewrite Hp in S1. replace (S (base - 1)) with base in S1 by lia.
      assert (Hl : j < length (skipn base d)) by (rewrite skipn_length; lia).
      pose proof (nth_split' (skipn base d) j x00 Hl) as S2.
      assert (Gn : nth j (skipn base d) x00 = ">"%byte). { rewrite <- G. rewrite <- (firstn_skipn base d) at 2. rewrite app_nth2; rewrite firstn_length_le by lia; [f_equal; lia|lia]. }
      rewrite Gn in S2. rewrite (skipn_all2 (skipn base d) (n := S j)) in S2 by (rewrite skipn_length; lia).
      exists (firstn (base - 1) d), (firstn j (skipn base d)). rewrite S1 at 1. rewrite S2 at 1. reflexivity.
  - destruct (decode_rune (skipn (base + j + 1) d)) as [r sz] eqn:D. destruct (is_space_rune r) eqn:W.
    + injection H as <- <-. split; [lia|]. split; [exact G|]. right. exists r, sz. auto.
    + apply (IH d (base + (j + 1)) i off); [lia|lia| |exact HB|exact H]. intros _. rewrite <- G. f_equal. lia.
Qed.
Lemma chat_split dec m d m' : d <> [] -> ~ (exists a b, d = a ++ B ">" ++ b ++ B ">") ->
  chat_unmarshal dec m ("<"%byte :: d) = (m', Ok tt) ->
  exists n sp t, d = n ++ B ">" ++ sp ++ t /\ (sp = [] \/ exists r, white r /\ sp = utf8_of r) /\
    name_unmarshal dec n = Ok (ch_name m') /\ string_unmarshal dec t = Ok (ch_text m').
Proof.
  intros Hd HB H. unfold chat_unmarshal in H. change (beq "<" "<") with true in H. cbv iota in H.
  destruct (name_end (S (length d)) d 0) as [[i off]|e|] eqn:E; [|discriminate|discriminate].
  assert (L : 0 < length d) by (destruct d; [contradiction|cbn; lia]).
  apply name_end_ok in E; [|lia|exact L|lia|exact HB]. destruct E as (Hi & Hn & Ho).
  destruct (max_name <? length (firstn i d))%nat; [discriminate|].
  destruct (name_unmarshal dec (firstn i d)) as [sn|e|] eqn:EN; [|discriminate|discriminate].
  unfold chat_text in H. destruct (string_unmarshal dec (skipn (i + off) d)) as [st|e|] eqn:ES; [|discriminate|discriminate]. injection H as <-.
  pose proof (nth_split' d i x00 Hi) as Sp. rewrite Hn in Sp.
  destruct Ho as [->|(r & sz & D & W & ->)].
  - exists (firstn i d), [], (skipn (S i) d). split; [exact Sp|]. split; [left; reflexivity|]. split; [exact EN|]. rewrite Nat.add_1_r in ES. exact ES.
  - exists (firstn i d), (utf8_of r), (skipn (i + (sz + 1)) d). split; [|split; [right; exists r; split; [apply is_space_white; exact W|reflexivity]|split; [exact EN|exact ES]]].
    rewrite Sp at 1. f_equal. cbn [app]. change (B ">" ++ utf8_of r ++ skipn (i + (sz + 1)) d) with (">"%byte :: utf8_of r ++ skipn (i + (sz + 1)) d). f_equal.
    unfold decode_rune in D. rewrite Nat.add_1_r in D. destruct (decode1 (skipn (S i) d)) as [p|] eqn:D1.
    + subst p. apply decode1_sound in D1. destruct D1 as (_ & E1 & E2). rewrite E1 at 1. change (utf8_of r) with (encode_scalar r). f_equal.
      assert (SK : forall a b (l : bytes), skipn a (skipn b l) = skipn (b + a) l) by (intros a b; induction b as [|b IHb]; intros [|x l]; cbn; [reflexivity|reflexivity|apply skipn_nil|apply IHb]).
      rewrite SK. f_equal. lia.
    + exfalso. injection D as <- _. vm_compute in W. discriminate.
Qed.

(** ** Lengths in ADCGET *)

Lemma flags_keep f : forall m d m', adcget_flags f m d = (m', Ok tt) ->
  ag_type m' = ag_type m /\ ag_ident m' = ag_ident m /\ ag_start m' = ag_start m /\ ag_length m' = ag_length m.
Proof.
  induction f as [|f IH]; intros m [|c d] m' H; cbn [adcget_flags] in H; try (injection H as <-; auto).
  destruct (cut_or_all (c :: d)) as [fld r]. destruct (bytes_eqb fld (B "ZL1")); [apply IH in H; destruct m; exact H|].
  destruct (has_prefix (B "DB") fld); [|apply IH in H; exact H]. destruct (parse_uint_trim (skipn 2 fld)); try discriminate. apply IH in H. destruct m; exact H.
Qed.
Lemma cut_or_all_spec d a r : cut_or_all d = (a, r) -> ~ In " "%byte a /\ (d = a /\ r = [] \/ d = a ++ B " " ++ r).
Proof.
  unfold cut_or_all. destruct (cut " " d) as [[x y]|] eqn:E.
  - intros [= <- <-]. apply cut_spec in E. destruct E as [-> E]. split; [exact E|right; reflexivity].
  - intros [= <- <-]. apply cut_none in E. split; [exact E|left; auto].
Qed.
Lemma adcget_length dec m d m' : adcget_unmarshal dec m d = (m', Ok tt) ->
  exists t i s l rest, d = t ++ B " " ++ i ++ B " " ++ s ++ B " " ++ l ++ rest /\
    ~ In " "%byte t /\ ~ In " "%byte i /\ ~ In " "%byte s /\ ~ In " "%byte l /\ (rest = [] \/ starts_with (B " ") rest) /\
    (l = B "-1" /\ ag_length m' = (-1)%Z \/
     l <> B "-1" /\ exists v, decimal l v /\ (v < 2 ^ 64)%N /\ ((v < 2 ^ 63)%N -> ag_length m' = Z.of_N v) /\ ((2 ^ 63 <= v)%N -> ag_length m' = (Z.of_N v - 2 ^ 64)%Z)).
Proof.
  unfold adcget_unmarshal. intros H.
  destruct (cut " " d) as [[t d1]|] eqn:E1; [|discriminate]. apply cut_spec in E1. destruct E1 as [-> N1].
  destruct (string_unmarshal dec t); try discriminate.
  destruct (cut " " d1) as [[i d2]|] eqn:E2; [|discriminate]. apply cut_spec in E2. destruct E2 as [-> N2].
  destruct (string_unmarshal dec i); try discriminate.
  destruct (cut " " d2) as [[s d3]|] eqn:E3; [|discriminate]. apply cut_spec in E3. destruct E3 as [-> N3].
  destruct (parse_uint_trim s); try discriminate.
  destruct (cut_or_all d3) as [l r] eqn:E4. apply cut_or_all_spec in E4. destruct E4 as [N4 E4].
  assert (R : exists rest, d3 = l ++ rest /\ (rest = [] \/ starts_with (B " ") rest)).
  { destruct E4 as [[-> _]| ->]; [exists []; rewrite app_nil_r; auto|exists (B " " ++ r); split; [reflexivity|right; exists r; reflexivity]]. }
  destruct R as (rest & -> & R). exists t, i, s, l, rest.
  split; [reflexivity|]. split; [exact N1|]. split; [exact N2|]. split; [exact N3|]. split; [exact N4|]. split; [exact R|].
  destruct (bytes_eqb l (B "-1")) eqn:M.
  - left. apply bytes_eqb_true in M. apply flags_keep in H. split; [exact M|]. destruct H as (_ & _ & _ & ->). reflexivity.
  - right. apply bytes_eqb_false in M. split; [exact M|]. destruct (parse_uint_trim l) as [v|e|] eqn:P; try discriminate.
    apply parse_uint_exact in P. destruct P as (x & (p & q & E) & D & V). apply flags_keep in H. destruct H as (_ & _ & _ & H). exists v.
    assert (X : x = l). { destruct p as [|p]; [|exfalso; apply N4; rewrite E; left; reflexivity]. destruct q as [|q]; [cbn in E; rewrite app_nil_r in E; congruence|].
      exfalso. apply N4. rewrite E. apply in_app_iff. right. apply in_app_iff. right. left. reflexivity. }
    subst x. split; [exact D|]. split; [exact V|]. rewrite H.
    assert (G : forall mm z, ag_length (set_ag_length mm z) = z) by (intros []; reflexivity). rewrite G. split; intros K.
    + apply to_int64_small. change two63 with (Z.of_N (2 ^ 63)). lia.
    + unfold to_int64, two63, two64. rewrite N.mod_small by (exact V). rewrite (proj2 (Z.ltb_ge _ _)); [reflexivity|lia].
Qed.
