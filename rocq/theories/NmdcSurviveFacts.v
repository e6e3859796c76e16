(** Proofs about SpecSurvive.v: exactly which messages arrive unchanged. *)
From Verif Require Import Base BaseFacts Num NumFacts NumSpec Utf8 Utf8Facts SpecText SpecHash SpecNmdc SpecFrame SpecRead SpecWrite SpecSurvive Html HtmlFacts HtmlReadFacts.
From Verif Require Import Base32 Tiger TigerFacts NmdcText NmdcTextFacts NmdcChat NmdcHub NmdcFiles NmdcUser NmdcMessage NmdcChatFacts NmdcMsgFacts NmdcFrameFacts NmdcWriteFacts.
From Verif Require Import NmdcReadFacts NmdcReadChat NmdcReadCmd NmdcReadFiles NmdcReadHub NmdcReadMsg.

(** ** Text *)

Notation es := (flat_map entity_string).
Notation en := (flat_map entity_name).
Notation lg := legacy_unescape.

Lemma unescape_two raw : unescape_bytes raw = html_unescape (lg raw).
Proof.
  assert (H : unescaped raw (unescape_bytes raw)) by now apply unescaped_iff.
  destruct H as (v & Hv & H). apply legacy_read_iff in Hv as ->. now apply html_read_iff in H.
Qed.
Lemma legacy_cases s : (exists p c r, In (p, c) legacy_pairs /\ s = p ++ r) \/ (forall p, In p legacy_seqs -> ~ starts_with p s).
Proof.
  destruct (legacy_match legacy_table s) as [[p c]|] eqn:M; [|right; now apply legacy_match_not].
  left. apply legacy_match_some in M as (H & r & ->). eauto.
Qed.
Lemma pair_seq p c : In (p, c) legacy_pairs -> In p legacy_seqs /\ length p = 10 /\ c <> "&"%byte.
Proof. intros H. repeat (destruct H as [H|H]; [injection H as <- <-; split; [cbn; tauto|split; [reflexivity|discriminate]]|]). destruct H. Qed.
Lemma lg_nil : lg [] = []. Proof. reflexivity. Qed.
Lemma lg_len : forall s, length (lg s) <= length s.
Proof.
  assert (G : forall n s, length s <= n -> length (lg s) <= length s).
  { induction n as [|n IH]; intros s L; [destruct s; [reflexivity|cbn in L; lia]|].
    destruct (legacy_cases s) as [(p & c & r & H & ->)|H].
    - pose proof (pair_seq _ _ H) as (_ & P & _). rewrite (legacy_unescape_seq p c r H). rewrite app_length in *. cbn. specialize (IH r). lia.
    - destruct s as [|c s]; [reflexivity|]. rewrite legacy_unescape_byte by exact H. cbn in *. specialize (IH s). lia. }
  intros s. now apply (G (length s)).
Qed.
Lemma lg_same s : length (lg s) = length s -> no_legacy s.
Proof.
  assert (G : forall n s, length s <= n -> length (lg s) = length s -> no_legacy s).
  { clear s. induction n as [|n IH]; intros s L E.
    - destruct s; [|cbn in L; lia]. intros p Hp (a & r & K). symmetry in K. apply app_eq_nil in K as [_ K]. apply app_eq_nil in K as [K _]. subst p. cbn in Hp. intuition discriminate.
    - destruct (legacy_cases s) as [(p & c & r & H & ->)|H].
      + exfalso. pose proof (pair_seq _ _ H) as (_ & P & _). rewrite (legacy_unescape_seq p c r H) in E. rewrite app_length in E. cbn in E. pose proof (lg_len r). lia.
      + destruct s as [|c s]; [apply (IH []); [cbn; lia|reflexivity]|]. rewrite legacy_unescape_byte in E by exact H. cbn in E, L.
        intros p Hp (a & r & K). destruct a as [|x a]; [apply (H p Hp); exists r; exact K|]. injection K as -> K.
        apply (IH s ltac:(lia) ltac:(lia) p Hp). exists a, r. exact K. }
  now apply (G (length s)).
Qed.
Lemma lg_iff s : lg s = s <-> no_legacy s.
Proof. split; [intros E; apply lg_same; now rewrite E|apply legacy_unescape_id]. Qed.
Lemma lg_shorter s t : lg s = t -> length t = length s -> s = t /\ no_legacy t.
Proof. intros <- E. pose proof (lg_same s E) as N. rewrite (legacy_unescape_id s N) in *. auto. Qed.

Section Esc.
Variable f : byte -> bytes.
Hypothesis F : forall c, f c = [c] /\ c <> "&"%byte \/ exists r, f c = "&"%byte :: r /\ ~ In "/"%byte r /\ forall t, html_unescape (f c ++ t) = c :: html_unescape t.
Hypothesis P : forall c, ~ In c (B "&<>$|") -> f c = [c].
Lemma starts_f p s : In p legacy_seqs -> starts_with p (flat_map f s) -> starts_with p s.
Proof.
  intros Hp H. pose proof (legacy_seqs_plain p Hp) as Pl.
  assert (K : has_prefix p (flat_map f s) = has_prefix p s).
  { apply has_prefix_esc.
    - intros c Hc. apply P. destruct p as [|x p]; [destruct Pl|]. now apply Pl.
    - intros c. destruct (F c) as [[E _]|(r & E & _)]; eauto.
    - intros K. destruct p as [|x p]; [destruct Pl|]. destruct Pl as [_ Pl]. apply (Pl _ K). now left. }
  destruct H as [r H]. assert (K2 : has_prefix p s = true) by (rewrite <- K, H; apply has_prefix_app). apply has_prefix_spec in K2 as [q ->]. now exists q.
Qed.
Lemma slash_first p : In p legacy_seqs -> exists r, p = "/"%byte :: r.
Proof. intros H. repeat (destruct H as [<-|H]; [eexists; reflexivity|]). destruct H. Qed.
Lemma lg_plain u t : ~ In "/"%byte u -> lg (u ++ t) = u ++ lg t.
Proof.
  induction u as [|c u IH]; intros H; [reflexivity|]. cbn [app]. rewrite legacy_unescape_byte.
  - f_equal. apply IH. intros K. apply H. now right.
  - intros p Hp (r & E). destruct (slash_first p Hp) as [q ->]. injection E as E _. apply H. left. exact E.
Qed.
Lemma lg_f : forall s, html_unescape (lg (flat_map f s)) = lg s.
Proof.
  assert (G : forall n s, length s <= n -> html_unescape (lg (flat_map f s)) = lg s).
  { induction n as [|n IH]; intros s L; [destruct s; [reflexivity|cbn in L; lia]|].
    destruct (legacy_cases s) as [(p & c & r & H & ->)|H].
    - pose proof (pair_seq _ _ H) as (Hp & Lp & Hc). rewrite flat_map_app.
      assert (E : flat_map f p = p).
      { pose proof (legacy_seqs_plain p Hp) as Pl. assert (A : forall c, In c p -> ~ In c (B "&<>$|")) by (destruct p; [destruct Pl|apply Pl]).
        clear -A P. induction p as [|x p IH]; [reflexivity|]. cbn [flat_map]. rewrite P by (apply A; now left). cbn [app]. f_equal. apply IH. intros c Hc. apply A. now right. }
      rewrite E, !(legacy_unescape_seq p c _ H). rewrite html_unescape_other by exact Hc. f_equal. apply IH. rewrite app_length in L. lia.
    - destruct s as [|c s]; [reflexivity|]. cbn [length] in L. rewrite (legacy_unescape_byte c s H). cbn [flat_map].
      destruct (F c) as [[E Hc]|(r & E & Hr & U)].
      + rewrite E. cbn [app]. rewrite legacy_unescape_byte.
        * rewrite html_unescape_other by exact Hc. f_equal. apply IH. lia.
        * intros p Hp K. apply (H p Hp). apply starts_f; [exact Hp|]. cbn [flat_map]. rewrite E. exact K.
      + rewrite E. rewrite lg_plain by (intros [K|K]; [discriminate|contradiction]). rewrite <- E, U. f_equal. apply IH. lia. }
  intros s. now apply (G (length s)).
Qed.
End Esc.
Lemma es_shape c : entity_string c = [c] /\ c <> "&"%byte \/ exists r, entity_string c = "&"%byte :: r /\ ~ In "/"%byte r /\ forall t, html_unescape (entity_string c ++ t) = c :: html_unescape t.
Proof.
  destruct (esc_char_string_cases c) as [(E & H)|[(-> & E)|[(-> & E)|(-> & E)]]]; rewrite <- entity_string_eq; rewrite E.
  - left. split; [reflexivity|tauto].
  - right. eexists. split; [reflexivity|]. split; [not_in|]. apply html_unescape_amp_ent.
  - right. eexists. split; [reflexivity|]. split; [not_in|]. apply html_unescape_dollar_ent.
  - right. eexists. split; [reflexivity|]. split; [not_in|]. apply html_unescape_pipe_ent.
Qed.
Lemma en_shape c : entity_name c = [c] /\ c <> "&"%byte \/ exists r, entity_name c = "&"%byte :: r /\ ~ In "/"%byte r /\ forall t, html_unescape (entity_name c ++ t) = c :: html_unescape t.
Proof.
  destruct (byte_eq_dec c "$") as [->|D]; [left; split; [reflexivity|discriminate]|]. rewrite <- entity_name_eq by exact D.
  destruct (esc_char_name_cases c) as [(E & H)|[(-> & E)|[(-> & E)|[(-> & E)|[(-> & E)|(-> & E)]]]]]; rewrite E.
  - left. split; [reflexivity|tauto].
  - right. eexists. split; [reflexivity|]. split; [not_in|]. apply html_unescape_amp_ent.
  - right. eexists. split; [reflexivity|]. split; [not_in|]. apply html_unescape_lt_ent.
  - right. eexists. split; [reflexivity|]. split; [not_in|]. apply html_unescape_gt_ent.
  - congruence.
  - right. eexists. split; [reflexivity|]. split; [not_in|]. apply html_unescape_pipe_ent.
Qed.
Lemma es_plain c : ~ In c (B "&$|") -> entity_string c = [c].
Proof. intros H. rewrite <- entity_string_eq. now apply esc_char_string_plain. Qed.
Lemma en_plain c : ~ In c (B "&<>|") -> entity_name c = [c].
Proof. intros H. destruct (byte_eq_dec c "$") as [->|D]; [reflexivity|]. rewrite <- entity_name_eq by exact D. apply esc_char_name_plain. cbn in *. intuition congruence. Qed.
Lemma unescape_es s : unescape_bytes (es s) = lg s.
Proof. rewrite unescape_two. apply lg_f; [exact es_shape|]. intros c H. apply es_plain. cbn in *. tauto. Qed.
Lemma unescape_en s : unescape_bytes (en s) = lg s.
Proof. rewrite unescape_two. apply lg_f; [exact en_shape|]. intros c H. apply en_plain. cbn in *. tauto. Qed.

Lemma text_none raw s : text_read None raw s <-> s = unescape_bytes raw /\ utf8_text s.
Proof.
  unfold text_read. split.
  - intros (u & U & E & V). apply unescaped_iff in U as ->. cbn in E. subst s. auto.
  - intros [-> V]. eexists. split; [now apply unescaped_iff|]. cbn. auto.
Qed.
Lemma in_es c s : ~ In c (B "&$|amp;#36124") -> (In c (es s) <-> In c s).
Proof.
  intros H. rewrite in_flat_map. split.
  - intros (x & Hx & K). destruct (in_dec byte_eq_dec x (B "&$|")) as [D|D].
    + exfalso. apply H. cbn in D. destruct D as [<-|[<-|[<-|[]]]]; cbn in K |- *; tauto.
    + rewrite es_plain in K by exact D. destruct K as [<-|[]]. exact Hx.
  - intros K. exists c. split; [exact K|]. rewrite es_plain; [now left|]. cbn in *. tauto.
Qed.
Lemma in_en c s : ~ In c (B "&<>|ampltg;#124") -> (In c (en s) <-> In c s).
Proof.
  intros H. rewrite in_flat_map. split.
  - intros (x & Hx & K). destruct (in_dec byte_eq_dec x (B "&<>|")) as [D|D].
    + exfalso. apply H. cbn in D. destruct D as [<-|[<-|[<-|[<-|[]]]]]; cbn in K |- *; tauto.
    + rewrite en_plain in K by exact D. destruct K as [<-|[]]. exact Hx.
  - intros K. exists c. split; [exact K|]. rewrite en_plain; [now left|]. cbn in *. tauto.
Qed.
Lemma en_len s : ~ In "$"%byte s -> N.of_nat (length (en s)) = name_wire_len s.
Proof. intros H. rewrite en_eq by exact H. now apply name_wire_len_esc. Qed.
Lemma wire_len_le s : (N.of_nat (length s) <= name_wire_len s)%N.
Proof.
  unfold name_wire_len. induction s as [|c s IH]; [reflexivity|]. cbn [length fold_right].
  destruct (b2n c =? 38)%N, ((b2n c =? 60) || (b2n c =? 62))%N, (b2n c =? 124)%N; lia.
Qed.
Definition clean (s : bytes) : Prop := ~ In "$"%byte s /\ ~ In x00 s /\ ~ In x0d s /\ ~ In x0a s /\ ~ In x09 s.
Lemma str_es u s : str_read None (es u) s <-> s = lg u /\ utf8_text s /\ ~ In x00 u.
Proof. unfold str_read. rewrite text_none, unescape_es, in_es by not_in. tauto. Qed.
Lemma name_en u s : clean u -> (name_read None (en u) s <-> s = lg u /\ utf8_text s /\ (name_wire_len u <= 256)%N).
Proof. intros C. unfold name_read. rewrite text_none, unescape_en, !in_en by not_in. rewrite en_len by apply C. unfold clean in C. tauto. Qed.
Lemma str_write_none s p : str_write None s p <-> ~ In x00 s /\ p = es s.
Proof. unfold str_write. cbn. split; [intros (w & -> & H); auto|intros [H ->]; eauto]. Qed.
Lemma name_write_none s p : name_write None s p <-> (N.of_nat (length s) <= 256)%N /\ clean s /\ p = en s.
Proof. unfold name_write. cbn. split; [intros (L & w & -> & H & ->); auto|intros (L & C & ->); split; [exact L|exists s; auto]]. Qed.
(** A text that is read as written. *)
Lemma t_ok_iff s : t_ok s <-> str_read None (es s) s.
Proof. unfold t_ok. rewrite str_es. split; [intros (U & Z & L); rewrite (legacy_unescape_id s L); auto|]. intros (E & U & Z). split; [exact U|]. split; [exact Z|]. now apply lg_iff. Qed.
Lemma n_ok_iff s : n_ok s <-> clean s /\ name_read None (en s) s.
Proof.
  unfold n_ok. split.
  - intros (U & W & C & L). split; [exact C|]. apply name_en; [exact C|]. rewrite (legacy_unescape_id s L). auto.
  - intros (C & H). apply name_en in H as (E & U & W); [|exact C]. split; [exact U|]. split; [exact W|]. split; [exact C|]. now apply lg_iff.
Qed.
Lemma n_ok_write s : n_ok s -> name_write None s (en s).
Proof. intros (U & W & C & L). apply name_write_none. split; [pose proof (wire_len_le s); lia|auto]. Qed.
Lemma t_ok_write s : t_ok s -> str_write None s (es s).
Proof. intros (U & Z & L). now apply str_write_none. Qed.

(** ** Cutting *)

(** An entity is an ampersand and bytes which are not used for separators. *)
Definition ent_byte (c : byte) : Prop := In c (B "&amp;ltg#36124").
Lemma es_bytes x c : In c (entity_string x) -> c = x /\ entity_string x = [x] \/ ent_byte c.
Proof.
  destruct (esc_char_string_cases x) as [(E & H)|[(-> & E)|[(-> & E)|(-> & E)]]]; rewrite <- entity_string_eq; rewrite E.
  - intros [<-|[]]. auto.
  - intros H. right. unfold ent_byte. cbn in H |- *. tauto.
  - intros H. right. unfold ent_byte. cbn in H |- *. tauto.
  - intros H. right. unfold ent_byte. cbn in H |- *. tauto.
Qed.
Lemma en_bytes x c : In c (entity_name x) -> c = x /\ entity_name x = [x] \/ ent_byte c.
Proof.
  destruct (byte_eq_dec x "$") as [->|D]; [intros [<-|[]]; auto|]. rewrite <- entity_name_eq by exact D.
  destruct (esc_char_name_cases x) as [(E & H)|[(-> & E)|[(-> & E)|[(-> & E)|[(-> & E)|(-> & E)]]]]]; rewrite E; [intros [<-|[]]; auto| | | | |];
    intros H; right; unfold ent_byte; cbn in H |- *; tauto.
Qed.
Section Cuts.
Variable f : byte -> bytes.
Hypothesis FB : forall x c, In c (f x) -> c = x /\ f x = [x] \/ ent_byte c.
(** A separator is found at the same place before escaping. *)
Lemma cut_back c : ~ ent_byte c -> forall s a b, flat_map f s = a ++ c :: b -> exists s1 s2, s = s1 ++ c :: s2 /\ a = flat_map f s1 /\ b = flat_map f s2.
Proof.
  intros Hc. induction s as [|x s IH]; intros a b E; [destruct a; discriminate|]. cbn [flat_map] in E.
  apply app_eq_app in E as (l & [[E1 E2]|[E1 E2]]).
  - destruct l as [|y l].
    + rewrite app_nil_r in E1. cbn in E2. destruct (IH [] b) as (s1 & s2 & -> & Ea & ->); [symmetry; exact E2|]. exists (x :: s1), s2. split; [reflexivity|]. split; [|reflexivity]. cbn [flat_map]. rewrite <- Ea, app_nil_r. now symmetry.
    + injection E2 as <- E2. destruct (FB x c) as [[-> E]|K]; [rewrite E1; apply in_or_app; right; now left| |contradiction].
      rewrite E in E1. destruct a as [|z a]; [|destruct a; discriminate]. injection E1 as <-. exists [], s. split; [reflexivity|]. split; [reflexivity|]. now rewrite E2.
  - destruct (IH l b) as (s1 & s2 & -> & -> & ->); [symmetry; now symmetry in E2|]. exists (x :: s1), s2. split; [reflexivity|]. split; [|reflexivity]. cbn [flat_map]. exact E1.
Qed.
Lemma first_at sep s a b a' b' : first sep s a b -> s = a' ++ sep ++ b' -> length a' <= length a -> a' = a /\ b' = b.
Proof.
  intros [E M] E' L. pose proof (M _ _ E'). destruct (len_app_inj a' a (sep ++ b') (sep ++ b)) as [-> K]; [lia|congruence|]. split; [reflexivity|]. now apply app_inv_head in K.
Qed.
Lemma first_unique sep s a b a' b' : first sep s a b -> first sep s a' b' -> a = a' /\ b = b'.
Proof. intros H [E M]. destruct (first_at _ _ _ _ _ _ H E) as [-> ->]; [|auto]. destruct H as [E' _]. now apply (M a b). Qed.
Lemma first_esc c sep s r a b : ~ ent_byte c -> first (c :: sep) (flat_map f s ++ (c :: sep) ++ r) a b ->
  (a = flat_map f s /\ b = r) \/ exists s1 s2, s = s1 ++ c :: s2 /\ a = flat_map f s1.
Proof.
  intros Hc H. pose proof (proj2 H _ _ eq_refl) as L. destruct (Nat.eq_dec (length a) (length (flat_map f s))) as [E|E].
  - left. destruct (first_at _ _ _ _ _ _ H eq_refl) as [-> ->]; [lia|auto].
  - right. destruct H as [H _]. symmetry in H. apply app_eq_app in H as (l & [[-> K]|[K1 K2]]); [rewrite app_length in L; destruct l; [rewrite app_nil_r in E; lia|cbn in L; lia]|].
    destruct l as [|y l]; [rewrite app_nil_r in K1; congruence|]. injection K2 as <- K2. destruct (cut_back c Hc s a l K1) as (s1 & s2 & -> & -> & _). eauto.
Qed.
End Cuts.
Lemma es_not_nil x : entity_string x <> [].
Proof. destruct (es_shape x) as [[E _]|(r & E & _)]; rewrite E; discriminate. Qed.
Lemma en_not_nil x : entity_name x <> [].
Proof. destruct (en_shape x) as [[E _]|(r & E & _)]; rewrite E; discriminate. Qed.
(** A field that is read as its value was not cut too early. *)
Lemma first_str c sep s r a b : ~ ent_byte c -> first (c :: sep) (es s ++ (c :: sep) ++ r) a b -> str_read None a s -> a = es s /\ b = r /\ t_ok s.
Proof.
  intros Hc H R. destruct (first_esc _ es_bytes c sep s r a b Hc H) as [[-> ->]|(s1 & s2 & -> & ->)].
  - split; [reflexivity|]. split; [reflexivity|]. now apply t_ok_iff.
  - exfalso. apply str_es in R as (E & _). pose proof (lg_len s1) as L. rewrite <- E, app_length in L. cbn in L. lia.
Qed.
Lemma first_name c sep s r a b : ~ ent_byte c -> clean s -> first (c :: sep) (en s ++ (c :: sep) ++ r) a b -> name_read None a s -> a = en s /\ b = r /\ n_ok s.
Proof.
  intros Hc C H R. destruct (first_esc _ en_bytes c sep s r a b Hc H) as [[-> ->]|(s1 & s2 & -> & ->)].
  - split; [reflexivity|]. split; [reflexivity|]. now apply n_ok_iff.
  - exfalso. destruct R as (_ & _ & R). apply text_none in R as [E _]. rewrite unescape_en in E. pose proof (lg_len s1) as L. rewrite <- E, app_length in L. cbn in L. lia.
Qed.
(** The separator is not in the first part. *)
Lemma first1_in c s a r : first [c] s a r -> ~ In c a.
Proof. intros H. apply first_cut in H. now apply cut_spec in H as [_ H]. Qed.
Lemma first1 c a r : ~ In c a -> first [c] (a ++ c :: r) a r.
Proof. intros H. apply first_cut, cut_spec. auto. Qed.
Lemma es_app a b : es (a ++ b) = es a ++ es b. Proof. apply flat_map_app. Qed.
Lemma en_app a b : en (a ++ b) = en a ++ en b. Proof. apply flat_map_app. Qed.

(** ** Numbers *)

Lemma dec_decimal n : decimal (dec_text n) n.
Proof. rewrite <- format_dec. apply decimal_iff. split; [apply format_uint_not_nil|apply digits_format]. Qed.
Lemma dec_digit n c : In c (dec_text n) -> digit_char c.
Proof. destruct (dec_decimal n) as (_ & F & _). rewrite Forall_forall in F. apply F. Qed.
Lemma dec_nodigit n c : (b2n c < 48 \/ 57 < b2n c)%N -> ~ In c (dec_text n).
Proof. intros H K. apply dec_digit in K. unfold digit_char in K. lia. Qed.
Lemma int_chars z c : In c (int_text z) -> digit_char c \/ c = "-"%byte.
Proof. unfold int_text. destruct (z <? 0)%Z; [intros [<-|H]; [auto|]|intros H]; left; eapply dec_digit; exact H. Qed.
Lemma int_nodigit z c : (b2n c < 45 \/ b2n c = 47 \/ 57 < b2n c)%N -> ~ In c (int_text z).
Proof. intros H K. apply int_chars in K as [K| ->]; [unfold digit_char in K; lia|]. change (b2n "-") with 45%N in H. lia. Qed.
Lemma padded_none s d : ~ In " "%byte s -> padded s d -> d = s.
Proof.
  intros H (i & j & E). destruct i; [|exfalso; apply H; rewrite E; now left]. destruct j; [cbn in E; now rewrite app_nil_r in E|].
  exfalso. apply H. rewrite E. cbn [repeat app]. apply in_or_app. right. now left.
Qed.
Lemma padded_self s : padded s s.
Proof. exists 0, 0. cbn. now rewrite app_nil_r. Qed.
Lemma uint_dec n m : uint_read (dec_text n) m <-> m = n /\ u64 n.
Proof.
  split.
  - intros (d & P & D & U). apply padded_none in P as ->; [|now apply dec_nodigit; left]. destruct D as (_ & _ & ->). destruct (dec_decimal n) as (_ & _ & E). rewrite <- E in *. auto.
  - intros [-> U]. exists (dec_text n). split; [apply padded_self|]. split; [apply dec_decimal|exact U].
Qed.
Lemma signed_dec n z : signed_decimal (dec_text n) z -> z = Z.of_N n.
Proof.
  intros (d & v & (_ & _ & D) & [[E ->]|[[E ->]|[E ->]]]).
  - subst v d. destruct (dec_decimal n) as (_ & _ & E). now rewrite <- E.
  - exfalso. apply (dec_nodigit n "+"); [now left|]. rewrite E. now left.
  - exfalso. apply (dec_nodigit n "-"); [now left|]. rewrite E. now left.
Qed.
Lemma int_dec n z : int_read (dec_text n) z <-> z = Z.of_N n /\ i64 z.
Proof.
  split.
  - intros (d & P & D & U). apply padded_none in P as ->; [|now apply dec_nodigit; left]. apply signed_dec in D. auto.
  - intros [-> U]. exists (dec_text n). split; [apply padded_self|]. split; [|exact U]. exists (dec_text n), n. split; [apply dec_decimal|auto].
Qed.
Lemma int_int z y : int_read (int_text z) y <-> y = z /\ i64 z.
Proof.
  split.
  - intros (d & P & D & U). apply padded_none in P as ->; [|now apply int_nodigit; left]. unfold int_text in D. destruct (Z.ltb_spec z 0) as [L|L].
    + destruct D as (e & v & (_ & F & D) & [[E ->]|[[E ->]|[E ->]]]).
      * exfalso. rewrite <- E in F. inversion F as [|? ? K]. unfold digit_char in K. change (b2n "-") with 45%N in K. lia.
      * discriminate.
      * injection E as <-. subst v. destruct (dec_decimal (Z.to_N (- z))) as (_ & _ & E). rewrite <- E in *. assert (K : (- Z.of_N (Z.to_N (- z)) = z)%Z) by lia. rewrite K in *. auto.
    + apply signed_dec in D. assert (K : y = z) by lia. clear D. subst y. auto.
  - intros [-> U]. exists (int_text z). split; [apply padded_self|]. split; [|exact U]. unfold int_text. destruct (Z.ltb_spec z 0) as [L|L].
    + exists (dec_text (Z.to_N (- z))), (Z.to_N (- z)). split; [apply dec_decimal|]. right. right. split; [reflexivity|lia].
    + exists (dec_text (Z.to_N z)), (Z.to_N z). split; [apply dec_decimal|]. left. split; [reflexivity|lia].
Qed.
Lemma uint_int z n : uint_read (int_text z) n -> (0 <= z)%Z /\ n = Z.to_N z /\ u64 n.
Proof.
  unfold int_text. destruct (Z.ltb_spec z 0) as [L|L].
  - intros (d & P & (_ & F & _) & _). apply padded_none in P as ->; [|intros [K|K]; [discriminate|revert K; now apply dec_nodigit; left]].
    inversion F as [|? ? K]. unfold digit_char in K. change (b2n "-") with 45%N in K. lia.
  - intros H. apply uint_dec in H as [-> H]. auto.
Qed.
