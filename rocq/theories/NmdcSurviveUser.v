(** Which messages arrive unchanged: user information. *)
From Coq Require Import Permutation.
From Verif Require Import Base BaseFacts Num NumFacts NumSpec Utf8 Utf8Facts SpecText SpecHash SpecNmdc SpecFrame SpecRead SpecWrite SpecSurvive Html HtmlFacts HtmlReadFacts.
From Verif Require Import Base32 Tiger TigerFacts NmdcText NmdcTextFacts NmdcChat NmdcHub NmdcFiles NmdcUser NmdcMessage NmdcChatFacts NmdcFilesFacts NmdcHubFacts NmdcMsgFacts NmdcFrameFacts NmdcDecodeFacts NmdcWriteFacts.
From Verif Require Import NmdcReadFacts NmdcReadChat NmdcReadCmd NmdcReadFiles NmdcReadHub NmdcReadUser NmdcReadMsg NmdcSurviveFacts NmdcSurviveChat NmdcSurviveHub NmdcSurviveCmd NmdcSurviveFiles.

Notation es := (flat_map entity_string).
Notation en := (flat_map entity_name).
Notation lg := legacy_unescape.

(** ** The description *)
Lemma starts_before p a c b : ~ In c p -> starts_with p (a ++ c :: b) -> starts_with p a.
Proof.
  intros N [r E]. apply app_eq_app in E as (l & [[E1 E2]|[E1 E2]]); [now exists l|].
  destruct l as [|x l]; [rewrite app_nil_r in E1; subst; now exists []; rewrite app_nil_r|]. injection E2 as <- _. exfalso. apply N. rewrite E1. apply in_or_app. right. now left.
Qed.
Lemma seq_no_lt p : In p legacy_seqs -> ~ In "<"%byte p.
Proof. intros H. repeat (destruct H as [<-|H]; [not_in|]). destruct H. Qed.
Lemma seq_plain p : In p legacy_seqs -> es p = p.
Proof. intros H. repeat (destruct H as [<-|H]; [reflexivity|]). destruct H. Qed.
Lemma es_tail : forall s x, html_unescape (lg (es s ++ "<"%byte :: x)) = lg s ++ "<"%byte :: html_unescape (lg x).
Proof.
  assert (G : forall n s x, length s <= n -> html_unescape (lg (es s ++ "<"%byte :: x)) = lg s ++ "<"%byte :: html_unescape (lg x)).
  { induction n as [|n IH]; intros s x L.
    - destruct s; [|cbn in L; lia]. change (es [] ++ "<"%byte :: x) with ([ "<"%byte ] ++ x). rewrite lg_plain by not_in. cbn [app]. rewrite html_unescape_other by discriminate. reflexivity.
    - destruct (legacy_cases s) as [(p & c & r & H & ->)|H].
      + pose proof (pair_seq _ _ H) as (Hp & Lp & Hc). rewrite es_app, (seq_plain p Hp), <- app_assoc, !(legacy_unescape_seq p c _ H). rewrite html_unescape_other by exact Hc. cbn [app]. f_equal. apply IH. rewrite app_length in L. lia.
      + destruct s as [|c s]; [apply IH; cbn; lia|]. cbn [length] in L. rewrite (legacy_unescape_byte c s H). cbn [flat_map]. rewrite <- app_assoc.
        destruct (es_shape c) as [[E Hc]|(r & E & Hr & U)].
        * rewrite E. cbn [app]. rewrite legacy_unescape_byte.
          -- rewrite html_unescape_other by exact Hc. f_equal. apply IH. lia.
          -- intros p Hp K. apply (H p Hp). change (c :: es s ++ "<"%byte :: x) with ([c] ++ es s ++ "<"%byte :: x) in K. rewrite <- E, app_assoc in K.
             apply starts_before in K; [|now apply seq_no_lt]. change (entity_string c ++ es s) with (es (c :: s)) in K. revert K. apply (starts_f entity_string es_shape); [|exact Hp]. intros y Hy. apply es_plain. cbn in *. tauto.
        * rewrite E. rewrite lg_plain by (intros [K|K]; [discriminate|contradiction]). rewrite <- E, U. cbn [app]. f_equal. apply IH. lia. }
  intros s x. now apply (G (length s)).
Qed.
Lemma lg_prefix : forall s y, lg s ++ y = s -> y = [].
Proof.
  assert (G : forall n s y, length s <= n -> lg s ++ y = s -> y = []).
  { induction n as [|n IH]; intros s y L E; [destruct s; [exact E|cbn in L; lia]|]. destruct (legacy_cases s) as [(p & c & r & H & ->)|H].
    - exfalso. rewrite (legacy_unescape_seq p c r H) in E. destruct (slash_first p (proj1 (pair_seq _ _ H))) as [q ->]. injection E as E _.
      clear - E H. repeat (destruct H as [H|H]; [injection H as _ H; subst; discriminate|]). destruct H.
    - destruct s as [|c s]; [exact E|]. rewrite legacy_unescape_byte in E by exact H. injection E as E. cbn in L. apply (IH s); [lia|exact E]. }
  intros s y. now apply (G (length s)).
Qed.
Lemma desc_arrives d T d' tag : es d ++ "<"%byte :: T = d' ++ "<"%byte :: tag -> ~ In "<"%byte tag -> str_read None d' d -> d' = es d /\ tag = T /\ t_ok d.
Proof.
  intros E N R. apply app_eq_app in E as (l & [[E1 E2]|[E1 E2]]).
  - destruct l as [|x l]; [|injection E2 as <- E2; exfalso; apply N; rewrite E2; apply in_or_app; right; now left].
    rewrite app_nil_r in E1. subst d'. injection E2 as ->. split; [reflexivity|]. split; [reflexivity|]. now apply t_ok_iff.
  - destruct l as [|x l]; [|exfalso].
    + rewrite app_nil_r in E1. subst d'. injection E2 as ->. split; [reflexivity|]. split; [reflexivity|]. now apply t_ok_iff.
    + injection E2 as <- E2. destruct R as [_ R]. apply text_none in R as [Q _]. rewrite unescape_two, E1, es_tail in Q. symmetry in Q. apply lg_prefix in Q. discriminate.
Qed.

(** ** The fields of the tag *)
Lemma last_in {A} (sel : item -> option A) is : forall d, last_of sel d is = d \/ exists i, In i is /\ sel i = Some (last_of sel d is).
Proof.
  induction is as [|i is IH]; intros d; [now left|]. unfold last_of. cbn [fold_left]. fold (last_of sel (match sel i with Some v => v | None => d end) is).
  destruct (IH (match sel i with Some v => v | None => d end)) as [E|(j & Hj & E)]; [|right; exists j; split; [now right|exact E]].
  destruct (sel i) as [v|] eqn:S; [|now left]. right. exists i. split; [now left|]. now rewrite E.
Qed.
Lemma last_none {A} (sel : item -> option A) is d : Forall (fun i => sel i = None) is -> last_of sel d is = d.
Proof. intros F. revert d. induction F as [|i is H _ IH]; intros d; [reflexivity|]. unfold last_of. cbn [fold_left]. rewrite H. apply IH. Qed.
Lemma items_in b fs is i : items_read b fs is -> In i is -> exists b' f, In f fs /\ item_read b' f i.
Proof.
  induction 1 as [|b f j fs is H _ IH]; [intros []|]. intros [->|Hi]; [exists b, f; split; [now left|exact H]|]. destruct (IH Hi) as (b' & g & Hg & K). exists b', g. split; [now right|exact K].
Qed.
Lemma letter_low c x : (b2n x <= 58)%N -> letter c = x -> c = x.
Proof.
  unfold letter. destruct (N.ltb_spec 90 (b2n c)) as [L|L]; [|auto]. intros H E. apply (f_equal b2n) in E. pose proof (b2n_lt c). rewrite b2n_n2b in E by lia. lia.
Qed.
Lemma utf8_low n c : In c (utf8_of n) -> (b2n c < 128)%N -> (n < 256)%N -> utf8_of n = [c] /\ b2n c = n.
Proof.
  intros H L B. rewrite utf8_of_eq in *. assert (V : Utf8.is_scalar n = true) by (unfold Utf8.is_scalar; destruct (N.ltb_spec n 0xD800); [reflexivity|lia]).
  pose proof (encode_scalar_no_ascii n c V H (proj2 (N.ltb_lt _ _) L)) as E. split; [exact E|]. unfold encode_scalar in E. destruct (N.ltb_spec n 128) as [K|K].
  - injection E as <-. now apply b2n_n2b; lia.
  - destruct (n <? 2048)%N; [discriminate|]. destruct (n <? 65536)%N; discriminate.
Qed.
Lemma letter_small c x : (b2n x <= 58)%N -> In x (utf8_of (b2n (letter c))) -> c = x.
Proof.
  intros L H. apply utf8_low in H as [_ E]; [|lia|apply b2n_lt]. apply letter_low; [exact L|]. rewrite <- (n2b_b2n (letter c)), <- E. apply n2b_b2n.
Qed.
(** Nothing read from a field contains a byte which is not in it. *)
Lemma item_extra b f k v : item_read b f (IExtra k v) -> (~ In ","%byte f -> ~ In ","%byte k /\ ~ In ","%byte v) /\ ~ In ":"%byte k.
Proof.
  intros H. inversion H as [| | | | | | | | |b' c v' N1 N2|b' k' v' L N]; subst.
  - split; [|intros K; apply N1; apply letter_small in K; [exact K|cbn; lia]].
    intros C. split; [|intros K; apply C; right; right; exact K]. intros K. apply letter_small in K; [|cbn; lia]. apply C. left. exact K.
  - split; [|exact N]. intros C. rewrite !in_app_iff in C. tauto.
Qed.
Lemma item_version b f v : item_read b f (IVersion v) -> ~ In ","%byte f -> ~ In ","%byte v.
Proof. intros H C K. inversion H; subst. apply C. right. right. exact K. Qed.
Lemma item_mode b f : item_read b f (IMode ",") -> In ","%byte f.
Proof. intros H. inversion H; subst. right. right. now left. Qed.

(** The name of a single letter. *)
Definition weight (k : bytes) : N := match k with [c] => 1 + b2n c | _ => 0 end.
Definition item_key (i : item) : list bytes := match i with IExtra k _ => [k] | _ => [] end.
Lemma std_items b c v i : In c (B "VMHS") -> item_read b (c :: B ":" ++ v) i ->
  (c = "V"%byte -> i = IVersion v) /\ (c = "M"%byte -> forall m, v = [m] -> i = IMode m) /\
  (c = "H"%byte -> forall s1 s2 s3, v = s1 ++ B "/" ++ s2 ++ B "/" ++ s3 -> ~ In "/"%byte s1 -> ~ In "/"%byte s2 -> ~ In "/"%byte s3 -> exists n r o, i = IHubs n r o /\ int_read s1 n /\ int_read s2 r /\ int_read s3 o) /\
  (c = "S"%byte -> exists n, i = ISlots n /\ int_read v n).
Proof.
  intros S H. assert (L : letter c = c) by (cbn in S; intuition (subst; reflexivity)).
  assert (NC : c <> ":"%byte) by (intros ->; revert S; not_in).
  remember (c :: B ":" ++ v) as f eqn:Ef. destruct H as [b|x N1 N2|b x w Lx|b x m Lx|b x w Lx Nw|b x Lx|b x s n Lx N1 N2 Hn|b x s1 s2 s3 n r o Lx N1 N2 N3 H1 H2 H3|b x s n Lx Hn|b x w N1 N2|b k w Lk Nk].
  - discriminate.
  - exfalso. apply N2. rewrite Ef. right. now left.
  - injection Ef as -> ->. rewrite L in Lx. subst c. split; [auto|]. repeat split; discriminate.
  - injection Ef as -> <-. rewrite L in Lx. subst c. split; [discriminate|]. split; [intros _ y [= ->]; reflexivity|]. split; discriminate.
  - injection Ef as -> ->. rewrite L in Lx. subst c. split; [discriminate|]. split; [intros _ y ->; now destruct Nw|]. split; discriminate.
  - injection Ef as -> <-. rewrite L in Lx. subst c. split; [discriminate|]. split; [discriminate|]. split; [|discriminate]. intros _ s1 s2 s3 E. destruct s1; discriminate.
  - injection Ef as -> ->. rewrite L in Lx. subst c. split; [discriminate|]. split; [discriminate|]. split; [|discriminate]. intros _ s1 s2 s3 ->. exfalso. apply N2. rewrite !in_app_iff. right. left. now left.
  - injection Ef as -> <-. rewrite L in Lx. subst c. split; [discriminate|]. split; [discriminate|]. split; [|discriminate]. intros _ t1 t2 t3 E M1 M2 M3.
    apply cut_same in E as [<- E]; [|assumption..]. apply cut_same in E as [<- <-]; [|assumption..]. eauto 8.
  - injection Ef as -> ->. rewrite L in Lx. subst c. split; [discriminate|]. split; [discriminate|]. split; [discriminate|]. eauto.
  - injection Ef as -> ->. exfalso. apply N2. unfold std_letter. now rewrite L.
  - exfalso. change (c :: B ":" ++ v) with ([c] ++ ":"%byte :: v) in Ef. change (k ++ B ":" ++ w) with (k ++ ":"%byte :: w) in Ef. apply cut_same in Ef as [Ef _]; [rewrite Ef in Lk; cbn in Lk; lia|exact Nk|]. intros [K|[]]. now apply NC.
Qed.
Lemma extra_item k v i : ~ In ":"%byte k -> item_read false (k ++ B ":" ++ v) i ->
  forall k', item_key i = [k'] -> i = IExtra k' v /\ (weight k' <= weight k)%N /\ (weight k' = weight k -> k' = k /\ k <> [] /\ forall c, k = [c] -> (b2n c <= 90)%N /\ ~ In c (B "VMHS")).
Proof.
  intros Nk H k' Ek. destruct i; try discriminate. injection Ek as ->.
  remember (k ++ B ":" ++ v) as f eqn:Ef. inversion H as [| | | | | | | | |b' c v' N1 N2|b' k0 v' L N]; subst.
  - match goal with E : _ = k ++ _ |- _ => change (c :: ":"%byte :: v0 = k ++ ":"%byte :: v) in E; apply (cut_same ":" [c] v0 k v) in E as [E ->]; [subst k|intros [K|[]]; now apply N1|exact Nk] end.
    split; [reflexivity|]. pose proof (b2n_lt c) as Bc. pose proof (b2n_lt (letter c)) as Bl. assert (W1 : forall x, weight [x] = (1 + b2n x)%N) by reflexivity. rewrite (W1 c).
    assert (U : utf8_of (b2n (letter c)) = [letter c] \/ weight (utf8_of (b2n (letter c))) = 0%N).
    { rewrite utf8_of_eq. unfold encode_scalar. destruct (b2n (letter c) <? 128)%N; [left; now rewrite n2b_b2n|]. right. destruct (b2n (letter c) <? 2048)%N; [reflexivity|]. destruct (b2n (letter c) <? 65536)%N; reflexivity. }
    assert (W : (b2n (letter c) <= b2n c)%N) by (unfold letter; destruct (N.ltb_spec 90 (b2n c)); [rewrite b2n_n2b by lia; lia|lia]).
    destruct U as [U|U]; [rewrite U, W1|rewrite U; split; [lia|intros K; exfalso; lia]]. split; [lia|]. intros K. assert (Q : letter c = c) by (rewrite <- (n2b_b2n (letter c)); replace (b2n (letter c)) with (b2n c) by lia; apply n2b_b2n).
    split; [now rewrite Q|]. split; [discriminate|]. intros x [= <-]. split.
    + unfold letter in Q. destruct (N.ltb_spec 90 (b2n c)) as [G|G]; [|exact G]. exfalso. apply (f_equal b2n) in Q. rewrite b2n_n2b in Q by lia. lia.
    + unfold std_letter in N2. now rewrite Q in N2.
  - match goal with E : _ = k ++ _ |- _ => apply cut_same in E as [<- ->]; [|assumption..] end. split; [reflexivity|]. split; [lia|]. intros _. split; [reflexivity|]. destruct k' as [|x [|y k']]; [cbn in L; lia..|]. split; [discriminate|]. intros z [=].
Qed.

(** ** Additional fields *)
Definition wsum (l : list bytes) : N := fold_right (fun k n => (weight k + n)%N) 0%N l.
Lemma wsum_cons k l : wsum (k :: l) = (weight k + wsum l)%N. Proof. reflexivity. Qed.
Lemma wsum_perm l l' : Permutation l l' -> wsum l = wsum l'.
Proof. induction 1 as [|x l l' _ IH|x y l|l l' l'' _ IH1 _ IH2]; rewrite ?wsum_cons in *; try congruence; lia. Qed.
Definition kv_field (kv : bytes * bytes) : bytes := fst kv ++ B ":" ++ snd kv.
Definition good_key (k : bytes) : Prop := k <> [] /\ forall c, k = [c] -> (b2n c <= 90)%N /\ ~ In c (B "VMHS").
Definition is_extra (i : item) : Prop := exists k v, i = IExtra k v.
Lemma keys_length is : length (flat_map item_key is) <= length is.
Proof. induction is as [|i is IH]; [reflexivity|]. cbn [flat_map length]. rewrite app_length. destruct i; cbn; lia. Qed.
Lemma pairs_fit extra : forall is, items_read false (map kv_field extra) is -> Forall (fun kv => ~ In ":"%byte (fst kv)) extra -> length (flat_map item_key is) = length is ->
  (wsum (flat_map item_key is) <= wsum (map fst extra))%N /\ (wsum (flat_map item_key is) = wsum (map fst extra) -> Forall (fun kv => good_key (fst kv)) extra /\ Forall is_extra is).
Proof.
  induction extra as [|[k v] extra IH]; intros is H F L; inversion H as [|b f i fs is' Hi His]; subst; [split; [apply N.le_refl|split; constructor]|].
  inversion F as [|? ? Fk F']; subst. cbn [fst] in Fk. cbn [flat_map length] in L. rewrite app_length in L. pose proof (keys_length is') as KL.
  destruct i as [| | | | | | |k' v']; try (cbn in L; lia). cbn [item_key length] in L. destruct (IH is' His F' ltac:(lia)) as [I1 I2].
  destruct (extra_item k v _ Fk Hi k' eq_refl) as (E & W & G). cbn [flat_map item_key app map fst]. rewrite !wsum_cons. split; [lia|]. intros Q.
  destruct I2 as [A1 A2]; [lia|]. destruct G as (_ & G); [lia|]. split; constructor; try assumption. now exists k', v'.
Qed.
Lemma extras_fit is0 is extra : Forall (fun i => item_key i = []) is0 -> extras_read (is0 ++ is) extra -> items_read false (map kv_field extra) is ->
  NoDup (map fst extra) /\ Forall (fun kv => ~ In ":"%byte (fst kv) /\ good_key (fst kv)) extra /\ Forall is_extra is.
Proof.
  intros F0 [ND X] H. assert (K : forall k v, In (k, v) extra -> In (IExtra k v) is).
  { intros k v Hk. apply X in Hk. destruct (last_in (sel_extra k) (is0 ++ is) None) as [E|(i & Hi & E)]; [congruence|]. rewrite Hk in E. destruct i as [| | | | | | |k' v']; try discriminate. cbn in E.
    destruct (bytes_eqb k k') eqn:B; [|discriminate]. apply bytes_eqb_true in B. injection E as ->. subst k'. apply in_app_iff in Hi as [Hi|Hi]; [|exact Hi]. rewrite Forall_forall in F0. apply F0 in Hi. discriminate. }
  assert (LN : length is = length extra).
  { clear - H. revert is H. induction extra as [|kv extra IH]; intros is H; inversion H as [|? ? ? ? is' Hi His]; subst; [reflexivity|]. cbn [length]. f_equal. now apply IH. }
  assert (FC : Forall (fun kv => ~ In ":"%byte (fst kv)) extra).
  { apply Forall_forall. intros [k v] Hk. apply K in Hk. destruct (items_in _ _ _ _ H Hk) as (b & f & _ & Hf). now apply item_extra in Hf as [_ Hf]. }
  assert (P : Permutation (map fst extra) (flat_map item_key is)).
  { apply NoDup_Permutation_bis; [exact ND|rewrite map_length, <- LN; apply keys_length|]. intros k Hk. apply in_map_iff in Hk as ([k' v] & <- & Hk). apply K in Hk. apply in_flat_map. exists (IExtra k' v). split; [exact Hk|now left]. }
  pose proof (Permutation_length P) as PL. rewrite map_length in PL.
  destruct (pairs_fit extra is H FC ltac:(lia)) as [_ G]. destruct (G (eq_sym (wsum_perm _ _ P))) as [G1 G2].
  split; [exact ND|]. split; [|exact G2]. apply Forall_forall. intros kv Hk. rewrite Forall_forall in FC, G1. auto.
Qed.

(** ** User information *)
Definition tag_text (cl v : bytes) (mode : byte) (hn hr ho slots : Z) (extra : list (bytes * bytes)) : bytes :=
  cl ++ B " V:" ++ v ++ B ",M:" ++ [mode] ++ B ",H:" ++ int_text hn ++ B "/" ++ int_text hr ++ B "/" ++ int_text ho ++ B ",S:" ++ int_text slots ++
  concat (map (fun kv => B "," ++ fst kv ++ B ":" ++ snd kv) extra).
Lemma split_kv a extra : ~ In ","%byte a -> Forall (fun kv => ~ In ","%byte (fst kv) /\ ~ In ","%byte (snd kv)) extra ->
  split_byte "," (a ++ concat (map (fun kv => B "," ++ fst kv ++ B ":" ++ snd kv) extra)) = a :: map kv_field extra.
Proof.
  intros Na F. revert a Na. induction F as [|[k v] extra [F1 F2] _ IH]; intros a Na; [cbn [map concat]; rewrite app_nil_r; now apply split_byte_notin|].
  cbn [map concat fst snd] in *. change ((B "," ++ k ++ B ":" ++ v) ++ ?r) with (","%byte :: (k ++ B ":" ++ v) ++ r). rewrite split_byte_app by exact Na. f_equal. apply IH.
  unfold kv_field. rewrite !in_app_iff. intros [Q|[Q|Q]]; [now apply F1|revert Q; not_in|now apply F2].
Qed.
Lemma hubs_no c hn hr ho : In c (B ",$<") -> ~ In c (int_text hn ++ B "/" ++ int_text hr ++ B "/" ++ int_text ho).
Proof.
  intros Hc. assert (N : forall z, ~ In c (int_text z)) by (intros z; apply int_nodigit; cbn in Hc; intuition (subst; cbn; lia)).
  rewrite !in_app_iff. intros [K|[K|[K|[K|K]]]]; try (now apply N in K); cbn in Hc; destruct K as [K|[]]; subst c; intuition discriminate.
Qed.
Lemma tag_arrives cl v mode m' hn hr ho slots extra c t fs is :
  m' = (if beq mode x00 then " "%byte else mode) ->
  tag_split (tag_text cl v m' hn hr ho slots extra) c t -> split_on (B ",") t fs -> items_read true fs is ->
  cl = last_of sel_client c is -> v = last_of sel_version [] is -> mode = last_of sel_mode x00 is -> extras_read is extra ->
  ~ substring (B " V:") cl /\ ~ In ","%byte v /\ mode <> x00 /\ mode <> ","%byte /\ i64 hn /\ i64 hr /\ i64 ho /\ i64 slots /\ NoDup (map fst extra) /\
  Forall (fun kv => (~ In ":"%byte (fst kv) /\ good_key (fst kv)) /\ ~ In ","%byte (fst kv) /\ ~ In ","%byte (snd kv)) extra.
Proof.
  intros Hm TS Sp Is Hcl Hv Hmode X. unfold tag_text in TS.
  set (W := v ++ B ",M:" ++ [m'] ++ B ",H:" ++ int_text hn ++ B "/" ++ int_text hr ++ B "/" ++ int_text ho ++ B ",S:" ++ int_text slots ++ concat (map (fun kv => B "," ++ fst kv ++ B ":" ++ snd kv) extra)) in TS.
  assert (SV : substring (B " V:") (cl ++ B " V:" ++ W)) by (eexists _, _; reflexivity).
  inversion TS as [tag c' t' F|tag c' t' N _|tag N _]; subst tag; try (now destruct N). subst c'. apply (split_on_byte ",") in Sp. subst fs.
  (* client *)
  assert (C : cl = c).
  { rewrite Hcl. apply last_none. destruct (split_byte "," t) as [|f fs] eqn:E; [now apply split_byte_not_nil in E|]. inversion Is as [|b f' i fs' is' Hi His]; subst. 
    assert (HV : exists y, f = "V"%byte :: B ":" ++ y).
    { destruct (split_byte "," t') as [|g gs] eqn:G; [now apply split_byte_not_nil in G|]. change (B "V:" ++ t') with ("V"%byte :: ":"%byte :: t') in E. cbn [split_byte beq] in E.
      change (beq "V" ",") with false in E. change (beq ":" ",") with false in E. cbv iota in E. rewrite G in E. injection E as <- _. now exists g. }
    destruct HV as [y ->]. destruct (std_items true "V" y i ltac:(cbn; tauto) Hi) as [K _]. rewrite (K eq_refl). constructor; [reflexivity|].
    apply Forall_forall. intros j Hj. destruct (sel_client j) eqn:S; [|reflexivity]. exfalso. clear - His Hj S. remember false as b eqn:Eb. induction His as [|b f k fs is Hk _ IH]; [destruct Hj|].
    destruct Hj as [->|Hj]; [|now apply IH]. destruct j; try discriminate. inversion Hk; congruence. }
  rewrite <- C in F. clear C Hcl. assert (T : t' = W) by (destruct F as [F _]; do 2 apply app_inv_head in F; now symmetry). subst t'.
  split. { intros (a & r & E). destruct F as [_ M]. specialize (M a (r ++ B " V:" ++ W)). rewrite E in M at 1. rewrite <- !app_assoc in M. specialize (M eq_refl). rewrite E, !app_length in M. cbn in M. lia. }
  clear F TS SV. match goal with H : B "V:" ++ W = t |- _ => subst t end.
  (* commas *)
  assert (P : forall f, In f (split_byte "," (B "V:" ++ W)) -> ~ In ","%byte f) by (intros f; apply split_byte_pieces).
  assert (Nv : ~ In ","%byte v).
  { rewrite Hv. destruct (last_in sel_version is []) as [E|(i & Hi & E)]; [rewrite E; intros []|]. destruct i; try discriminate. injection E as E. rewrite <- E.
    destruct (items_in _ _ _ _ Is Hi) as (b & f & Hf & K). exact (item_version b f _ K (P f Hf)). }
  assert (Nm : mode <> ","%byte).
  { intros Q. destruct (last_in sel_mode is x00) as [E|(i & Hi & E)]; [congruence|]. destruct i; try discriminate. injection E as E. rewrite <- Hmode, Q in E. subst m.
    destruct (items_in _ _ _ _ Is Hi) as (b & f & Hf & K). exact (P f Hf (item_mode b f K)). }
  assert (Ne : Forall (fun kv => ~ In ","%byte (fst kv) /\ ~ In ","%byte (snd kv)) extra).
  { apply Forall_forall. intros [k x] Hk. destruct X as [_ X]. apply X in Hk. destruct (last_in (sel_extra k) is None) as [E|(i & Hi & E)]; [congruence|]. rewrite Hk in E. destruct i as [| | | | | | |k' v']; try discriminate. cbn in E.
    destruct (bytes_eqb k k') eqn:B; [|discriminate]. apply bytes_eqb_true in B. injection E as ->. subst k'. destruct (items_in _ _ _ _ Is Hi) as (b & f & Hf & K). apply item_extra in K as [K _]. exact (K (P f Hf)). }
  assert (Nm' : m' <> ","%byte) by (rewrite Hm; destruct (beq mode x00); [discriminate|exact Nm]).
  assert (E : split_byte "," (B "V:" ++ W) = ("V"%byte :: B ":" ++ v) :: ("M"%byte :: B ":" ++ [m']) :: ("H"%byte :: B ":" ++ int_text hn ++ B "/" ++ int_text hr ++ B "/" ++ int_text ho) :: ("S"%byte :: B ":" ++ int_text slots) :: map kv_field extra).
  { unfold W. 
    replace (B "V:" ++ v ++ B ",M:" ++ [m'] ++ B ",H:" ++ int_text hn ++ B "/" ++ int_text hr ++ B "/" ++ int_text ho ++ B ",S:" ++ int_text slots ++ concat (map (fun kv => B "," ++ fst kv ++ B ":" ++ snd kv) extra))
      with (("V"%byte :: B ":" ++ v) ++ ","%byte :: ("M"%byte :: B ":" ++ [m']) ++ ","%byte :: ("H"%byte :: B ":" ++ int_text hn ++ B "/" ++ int_text hr ++ B "/" ++ int_text ho) ++ ","%byte :: ("S"%byte :: B ":" ++ int_text slots) ++ concat (map (fun kv => B "," ++ fst kv ++ B ":" ++ snd kv) extra))
      by (cbn [app B]; rewrite <- ?app_assoc; cbn [app]; rewrite <- ?app_assoc; cbn [app]; rewrite <- ?app_assoc; reflexivity).
    rewrite split_byte_app by (intros [K|[K|K]]; [discriminate..|now apply Nv]). f_equal. rewrite split_byte_app by (intros [K|[K|[K|[]]]]; [discriminate..|now apply Nm']). f_equal.
    rewrite split_byte_app by (intros [K|[K|K]]; [discriminate..|apply (hubs_no "," hn hr ho); [cbn; tauto|exact K]]). f_equal.
    apply split_kv; [|exact Ne]. intros [K|[K|K]]; [discriminate..|]. revert K. apply int_nodigit. left. reflexivity. }
  rewrite E in Is. clear P E.
  inversion Is as [|b1 f1 i1 fs1 is1 H1 Is1]; subst b1 f1 fs1 is. inversion Is1 as [|b2 f2 i2 fs2 is2 H2 Is2]; subst b2 f2 fs2 is1. inversion Is2 as [|b3 f3 i3 fs3 is3 H3 Is3]; subst b3 f3 fs3 is2. inversion Is3 as [|b4 f4 i4 fs4 is4 H4 Is4]; subst b4 f4 fs4 is3.
  apply std_items in H1 as (H1 & _); [|cbn; tauto]. specialize (H1 eq_refl). apply std_items in H2 as (_ & H2 & _); [|cbn; tauto]. specialize (H2 eq_refl m' eq_refl).
  apply std_items in H3 as (_ & _ & H3 & _); [|cbn; tauto]. destruct (H3 eq_refl (int_text hn) (int_text hr) (int_text ho) eq_refl (int_noslash _) (int_noslash _) (int_noslash _)) as (n & r & o & E3 & R1 & R2 & R3).
  apply std_items in H4 as (_ & _ & _ & H4); [|cbn; tauto]. destruct (H4 eq_refl) as (sl & E4 & R4). clear H3 H4. subst i1 i2 i3 i4.
  apply int_int in R1 as [_ R1]. apply int_int in R2 as [_ R2]. apply int_int in R3 as [_ R3]. apply int_int in R4 as [_ R4].
  destruct (extras_fit [IVersion v; IMode m'; IHubs n r o; ISlots sl] is4 extra ltac:(repeat constructor) X Is4) as (ND & Fx & Ax).
  split; [exact Nv|]. split.
  { assert (Q : mode = m').
    { rewrite Hmode. change (last_of sel_mode m' is4 = m'). apply last_none. eapply Forall_impl; [|exact Ax]. intros i (k & x & ->). reflexivity. }
    intros Z. rewrite Z in Hm. cbn in Hm. rewrite Hm, Z in Q. discriminate. }
  split; [exact Nm|]. split; [exact R1|]. split; [exact R2|]. split; [exact R3|]. split; [exact R4|]. split; [exact ND|].
  apply Forall_forall. intros kv Hk. rewrite Forall_forall in Fx, Ne. split; [now apply Fx|now apply Ne].
Qed.
Lemma cut5 s f0 md f2 f3 f4 f5 g0 g1 g2 g3 g4 : Forall (fun f => ~ In "$"%byte f) [f0; md; f2; f3; f4; f5] ->
  s = sep_by (B "$") [f0; md; f2; f3; f4; f5] -> s = g0 ++ B "$" ++ g1 ++ B "$" ++ g2 ++ B "$" ++ g3 ++ B "$" ++ g4 ++ B "$" ->
  f0 = g0 /\ md = g1 /\ f2 = g2 /\ f3 = g3 /\ f4 = g4 /\ Forall (fun g => ~ In "$"%byte g) [g0; g1; g2; g3; g4].
Proof.
  intros F E1 E2. assert (L : length (split_byte "$" s) = 6).
  { rewrite E1, sep_by_join, split_byte_join; [reflexivity|discriminate|]. intros x Hx. rewrite Forall_forall in F. now apply F. }
  assert (Z : Forall (fun g => ~ In "$"%byte g) [g0; g1; g2; g3; g4]).
  { rewrite split_byte_count, E2, !count_byte_app in L. change (count_byte "$" (B "$")) with 1 in L. repeat constructor; apply count_byte_zero; lia. }
  assert (S1 : split_byte "$" s = [f0; md; f2; f3; f4; f5]). { rewrite E1, sep_by_join. apply split_byte_join; [discriminate|]. intros x Hx. rewrite Forall_forall in F. now apply F. }
  assert (S2 : split_byte "$" s = [g0; g1; g2; g3; g4; []]).
  { rewrite E2. change (g0 ++ B "$" ++ g1 ++ B "$" ++ g2 ++ B "$" ++ g3 ++ B "$" ++ g4 ++ B "$") with (join ["$"%byte] [g0; g1; g2; g3; g4; []]). apply split_byte_join; [discriminate|].
    intros x Hx. rewrite Forall_forall in Z. destruct (in_app_or [g0; g1; g2; g3; g4] [[]] x Hx) as [K|[<-|[]]]; [now apply Z|intros []]. }
  rewrite S1 in S2. injection S2 as -> -> -> -> -> _. auto 8.
Qed.
Lemma in_extra c kv extra : In kv extra -> In c (fst kv) \/ In c (snd kv) -> In c (concat (map (fun kv => B "," ++ fst kv ++ B ":" ++ snd kv) extra)).
Proof. intros H K. apply in_concat. exists (B "," ++ fst kv ++ B ":" ++ snd kv). split; [apply in_map_iff; now exists kv|]. rewrite !in_app_iff. tauto. Qed.
Lemma myinfo_arrives m : arrives (MMyInfo m) <-> fits (MMyInfo m).
Proof.
  destruct m as [n d cl v mode hn hr ho slots extra conn flag email share]. cbn [fits]. unfold myinfo_fits.
  cbn [mi_name mi_desc mi_client mi_version mi_mode mi_hubs_normal mi_hubs_reg mi_hubs_op mi_slots mi_extra mi_conn mi_flag mi_email mi_share]. split.
  - arr. match goal with H : myinfo_write _ _ _ |- _ => inversion H as [n' d' cl' v' mo' hn' hr' ho' sl' ex' co' fl' em' sh' pn pd pc pe Wn Wd Wc We]; subst; clear H end. txt.
    match goal with H : myinfo_read _ _ _ |- _ => inversion H as [nn f0 md f2 f3 f4 f5 na de cl2 ve mo hn2 hr2 ho2 sl2 ex2 co fl em sh Nn Rn NF Tag Con Em Sh E]; subst; clear H end.
    set (m' := if beq mode x00 then " "%byte else mode) in *. set (fl := if beq flag x00 then x01 else flag) in *.
    pose proof (first1 " " nn (sep_by (B "$") [f0; [md]; f2; f3; f4; f5]) Nn) as F.
    match type of E with ?l = ?r => change (first [" "%byte] l nn (sep_by (B "$") [f0; [md]; f2; f3; f4; f5])) in F; rewrite E in F end.
    match goal with C : clean n |- _ => destruct (first_name " " [] n _ _ _ space_sep C F Rn) as (-> & E2 & Hn) end. clear F E.
    split; [exact Hn|]. split; [intros K; apply Nn; apply in_en; [not_in|exact K]|].
    destruct (cut5 _ f0 [md] f2 f3 f4 f5 (es d ++ B "<" ++ tag_text cl v m' hn hr ho slots extra ++ B ">") (B " ") (es conn ++ [fl]) (es email) (dec_text share) NF eq_refl) as (E0 & E1 & E3 & E4 & E5 & Z).
    { rewrite E2. unfold tag_text. rewrite <- !app_assoc. reflexivity. }
    clear E2 NF. subst f0 f2 f3 f4. clear E1. apply t_ok_iff in Em.
    assert (Us : u64 share) by (destruct Sh as [Sh|[_ ->]]; [now apply uint_dec in Sh as [_ Sh]|reflexivity]).
    pose proof (proj1 (Forall_forall _ _) Z _ (or_introl eq_refl)) as Z0. pose proof (proj1 (Forall_forall _ _) Z _ (or_intror (or_intror (or_introl eq_refl)))) as Z2. cbv beta in Z0, Z2. clear Z.
    assert (Hc : t_ok conn /\ flag = fl). { destruct Con as [[K _]|(c & K & R)]; [destruct (es conn); discriminate|]. apply app_inj_tail in K as [K1 K2]. subst c. split; [now apply t_ok_iff|now symmetry]. }
    destruct Hc as [Hc Hf].
    destruct Tag as [(K & _)|(d2 & tag & tag' & c & t & fs & is & E0 & NL & _ & Rd & Ws & TS & Sp & Is & Q1 & Q2 & Q3 & Q4 & Q5 & Q6 & Q7 & X)]; [exfalso; apply K; rewrite !in_app_iff; right; left; now left|].
    destruct (desc_arrives d (tag_text cl v m' hn hr ho slots extra ++ B ">") d2 tag E0 NL Rd) as (-> & -> & Hd). apply without_suffix_iff in Ws; [|discriminate]. rewrite trim_suffix_app in Ws. subst tag'.
    destruct (tag_arrives cl v mode m' hn hr ho slots extra c t fs is eq_refl TS Sp Is Q1 Q2 Q3 X) as (A1 & A2 & A3 & A4 & A5 & A6 & A7 & A8 & A9 & A10).
    assert (M : m' = mode) by (unfold m'; destruct (beq_spec mode x00); [contradiction|reflexivity]). rewrite M in *. clear M m'.
    assert (G : forall ch, ~ In ch (tag_text cl v mode hn hr ho slots extra) -> ~ In ch cl /\ ~ In ch v /\ ch <> mode /\ Forall (fun kv => ~ In ch (fst kv) /\ ~ In ch (snd kv)) extra).
    { intros ch N. unfold tag_text in N. rewrite !in_app_iff in N. split; [tauto|]. split; [tauto|]. split; [intros ->; cbn [In] in N; tauto|].
      apply Forall_forall. intros kv Hk. assert (Q : ~ (In ch (fst kv) \/ In ch (snd kv))) by (intros Q; apply (in_extra ch kv extra Hk) in Q; tauto). tauto. }
    assert (GL : ~ In "<"%byte (tag_text cl v mode hn hr ho slots extra)) by (intros K; apply NL; apply in_or_app; now left).
    assert (GD : ~ In "$"%byte (tag_text cl v mode hn hr ho slots extra)) by (intros K; apply Z0; apply in_or_app; right; apply in_or_app; right; apply in_or_app; left; exact K).
    destruct (G _ GL) as (L1 & L2 & L3 & L4). destruct (G _ GD) as (D1 & D2 & D3 & D4).
    split; [exact Hd|]. split; [exact L1|]. split; [exact D1|]. split; [exact A1|]. split; [split; [exact A2|split; [exact L2|exact D2]]|]. split; [exact A3|].
    split; [split; [intros [K|[]]; now apply A4|split; [intros [K|[]]; now apply L3|intros [K|[]]; now apply D3]]|].
    split; [exact A5|]. split; [exact A6|]. split; [exact A7|]. split; [exact A8|]. split; [exact A9|]. split.
    { apply Forall_forall. intros kv Hk. rewrite Forall_forall in A10, L4, D4. destruct (A10 kv Hk) as ((B1 & B2 & B3) & B4 & B5). destruct (L4 kv Hk) as [C1 C2]. destruct (D4 kv Hk) as [E1 E2].
      split; [split; [exact B2|split; [split; [exact B4|split; [exact C1|exact E1]]|split; [exact B1|exact B3]]]|split; [exact B5|split; [exact C2|exact E2]]]. }
    split; [exact Hc|]. assert (F0 : flag <> x00) by (intros K; unfold fl in Hf; rewrite K in Hf; discriminate). split; [exact F0|]. split; [|split; [exact Em|exact Us]].
    intros K. apply Z2. rewrite <- Hf, K. apply in_or_app. right. now left.
  - intros (H1 & H2 & H3 & H4 & H5 & H6 & H7 & H8 & H9 & H10 & H11 & H12 & H13 & H14 & H15 & H16 & H17 & H18 & H19 & H20).
    eapply arrives_wire; [exact I|exact I|]. constructor. apply miw with (wn := n) (wd := d) (wc := conn) (we := email); try assumption; try now apply t_ok_text. now apply n_ok_text.
Qed.

(** ** All messages *)
Theorem arrives_iff m : sized m -> (arrives m <-> fits m).
Proof.
  intros Z. destruct m; cbn [fits].
  all: try (first [apply name_arrives | apply string_arrives | apply err_arrives | apply names_arrives | apply chat_arrives | apply pm_arrives | apply mcto_arrives | apply ucmd_arrives | apply ctm_arrives | apply rctm_arrives
    | apply adcget_arrives | apply adcsnd_arrives | apply direction_arrives | apply failover_arrives | apply supports_arrives | apply lock_arrives | apply hubinfo_arrives | apply userip_arrives | apply raw_arrives | apply myinfo_arrives
    | now apply search_arrives | now apply sr_arrives | now apply sa_arrives | now apply sp_arrives]).
  - split; [auto|]. intros _. apply noargs_arrives.
  - split; [auto|]. intros _. apply text_arrives.
Qed.

(** The order of additional fields does not count. *)
Lemma reads_alike p m m' : SpecRead.reads None p m' -> msg_alike m' m -> SpecRead.reads None p m.
Proof.
  intros R [->|(x & y & -> & -> & E & P)]; [exact R|]. inversion R; subst. match goal with H : myinfo_read _ _ _ |- _ => rename H into M end. constructor. rewrite E. clear E R.
  inversion M as [n f0 md f2 f3 f4 f5 name desc client version mode hn hr ho slots extra conn flag email share H1 H2 H3 H4 H5 H6 H7]; subst. cbn in *.
  apply mir; try assumption. destruct H4 as [(A1 & A2 & A3 & A4 & A5 & A6 & A7)|(d & tag & tag' & c & t & fs & is & A)].
  - left. subst extra. apply Permutation_nil in P. rewrite P. auto 9.
  - right. exists d, tag, tag', c, t, fs, is. destruct A as (A1 & A2 & A3 & A4 & A5 & A6 & A7 & A8 & A9 & A10 & A11 & A12 & A13 & A14 & A15 & X1 & X2).
    repeat (split; [assumption|]). split; [apply (Permutation_NoDup (l := map fst extra)); [now apply Permutation_map|exact X1]|].
    intros k v. rewrite <- X2. split; intros K; [apply (Permutation_in _ (Permutation_sym P) K)|apply (Permutation_in _ P K)].
Qed.

(** ** Messages which are sent on *)
Lemma es_en s : ~ In "<"%byte s -> ~ In ">"%byte s -> ~ In "$"%byte s -> es s = en s.
Proof.
  induction s as [|c s IH]; [reflexivity|]. cbn [In flat_map]. intros A1 A2 A3. rewrite IH by tauto. f_equal. destruct (byte_eq_dec c "&") as [->|D1]; [reflexivity|]. destruct (byte_eq_dec c "|") as [->|D2]; [reflexivity|].
  rewrite es_plain by (cbn; intuition congruence). symmetry. apply en_plain. cbn. intuition congruence.
Qed.
Lemma no_legacy_cut c a b : (forall p, In p legacy_seqs -> ~ In c p) -> no_legacy a -> no_legacy b -> no_legacy (a ++ c :: b).
Proof.
  intros N A B p Hp (x & r & E). apply app_eq_app in E as (l & [[E1 E2]|[E1 E2]]).
  - destruct l as [|y l]; [destruct (slash_first p Hp) as [q ->]; cbn [app] in E2; injection E2 as E2 _; apply (N _ Hp); left; congruence|]. symmetry in E2. apply app_eq_app in E2 as (k & [[F1 F2]|[F1 F2]]).
    + apply (A p Hp). exists x, k. now rewrite E1, F1.
    + destruct k as [|z k]; [apply (A p Hp); exists x, []; rewrite app_nil_r in *; now subst|injection F2 as -> _; apply (N p Hp); rewrite F1; apply in_or_app; right; now left].
  - destruct l as [|y l]; [destruct (slash_first p Hp) as [q ->]; cbn [app] in E2; injection E2 as E2 _; apply (N _ Hp); left; congruence|]. injection E2 as <- E2. apply (B p Hp). now exists l, r.
Qed.
Definition forged (n t : bytes) : bytes := B "<" ++ n ++ B "> " ++ t.
Lemma forged_ok n t : n_ok n -> t_ok t -> t_ok (forged n t).
Proof.
  intros (Un & _ & (_ & Zn & _) & Ln) (Ut & Zt & Lt). unfold forged.
  assert (NS : forall c, In c (B "<> ") -> forall p, In p legacy_seqs -> ~ In c p).
  { intros c Hc p Hp K. clear - Hc Hp K. repeat (destruct Hp as [<-|Hp]; [cbn in Hc, K; intuition (subst; discriminate)|]). destruct Hp. }
  split; [|split].
  - change (B "<" ++ n ++ B "> " ++ t) with ([] ++ "<"%byte :: n ++ ">"%byte :: [] ++ " "%byte :: t). rewrite !utf8_cut by reflexivity. repeat split; try assumption; apply utf8_nil.
  - rewrite !in_app_iff. intros [K|[K|[K|K]]]; [revert K; not_in|now apply Zn|revert K; not_in|now apply Zt].
  - assert (N0 : no_legacy []) by apply n_ok_nil.
    change (no_legacy ([] ++ "<"%byte :: n ++ ">"%byte :: [] ++ " "%byte :: t)). apply no_legacy_cut; [apply NS; cbn; tauto|exact N0|]. apply no_legacy_cut; [apply NS; cbn; tauto|exact Ln|]. apply no_legacy_cut; [apply NS; cbn; tauto|exact N0|exact Lt].
Qed.
Lemma forged_read n t : n_ok n -> t_ok t -> SpecRead.reads None (B "<> " ++ es (forged n t)) (MChat (mk_chat [] (forged n t))).
Proof.
  intros Hn Ht. pose proof (forged_ok n t Hn Ht) as Hf. constructor.
  change (B "<> " ++ es (forged n t)) with (B "<" ++ ([] ++ B ">" ++ utf8_of 32 ++ es (forged n t))). apply cr_named with (n := []) (t := es (forged n t)).
  - apply cs_space; [vm_compute; tauto|split; intros []|]. intros a _. cbn. lia.
  - destruct n_ok_nil as (U & _ & C & L). apply (name_en [] []); [exact C|]. split; [reflexivity|split; [exact U|cbn; lia]].
  - now apply t_ok_iff.
Qed.
Lemma forged_written n t : n_ok n -> ~ In "<"%byte n -> ~ In ">"%byte n -> n <> [] -> t_ok t ->
  writes None (MChat (mk_chat [] (forged n t))) (B "<" ++ en n ++ B "> " ++ es t) /\ writes None (MChat (mk_chat n t)) (B "<" ++ en n ++ B "> " ++ es t).
Proof.
  intros Hn A1 A2 N0 Ht. pose proof (forged_ok n t Hn Ht) as Hf. split; constructor; constructor.
  - apply str_write_none. split; [apply Hf|]. unfold forged. rewrite !es_app, (es_en n) by (try assumption; apply Hn). reflexivity.
  - exact N0.
  - now apply n_ok_write.
  - now apply t_ok_write.
Qed.
