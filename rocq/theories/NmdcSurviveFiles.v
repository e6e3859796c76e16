(** Which messages arrive unchanged: searches and search results. *)
From Verif Require Import Base BaseFacts Num NumFacts NumSpec Utf8 Utf8Facts SpecText SpecHash SpecNmdc SpecFrame SpecRead SpecWrite SpecSurvive Html HtmlFacts HtmlReadFacts.
From Verif Require Import Base32 Tiger TigerFacts NmdcText NmdcTextFacts NmdcChat NmdcHub NmdcFiles NmdcUser NmdcMessage NmdcChatFacts NmdcFilesFacts NmdcHubFacts NmdcMsgFacts NmdcFrameFacts NmdcDecodeFacts NmdcWriteFacts.
From Verif Require Import NmdcReadFacts NmdcReadChat NmdcReadCmd NmdcReadFiles NmdcReadHub NmdcReadMsg NmdcSurviveFacts NmdcSurviveChat NmdcSurviveHub NmdcSurviveCmd.

Notation es := (flat_map entity_string).
Notation en := (flat_map entity_name).
Notation lg := legacy_unescape.

(** ** UTF-8 and ASCII *)
Lemma utf8_app a b : utf8_text a -> utf8_text b -> utf8_text (a ++ b).
Proof. intros (ra & Fa & ->) (rb & Fb & ->). exists (ra ++ rb). split; [now apply Forall_app|]. now rewrite flat_map_app. Qed.
Lemma utf8_one c : (b2n c < 128)%N -> utf8_text [c].
Proof.
  intros H. exists [b2n c]. split; [constructor; [left; lia|constructor]|]. cbn [flat_map]. rewrite app_nil_r, utf8_of_eq. unfold encode_scalar.
  rewrite (proj2 (N.ltb_lt _ _) H). now rewrite n2b_b2n.
Qed.
Lemma utf8_single r c : scalar r -> (b2n c < 128)%N -> In c (utf8_of r) -> utf8_of r = [c].
Proof. intros F L K. rewrite utf8_of_eq in *. apply scalar_iff in F. apply (encode_scalar_no_ascii r c F K). now apply N.ltb_lt. Qed.
Lemma utf8_cut c a b : (b2n c < 128)%N -> (utf8_text (a ++ c :: b) <-> utf8_text a /\ utf8_text b).
Proof.
  intros L. split; [|intros [Ha Hb]; change (c :: b) with ([c] ++ b); apply utf8_app; [exact Ha|apply utf8_app; [now apply utf8_one|exact Hb]]].
  intros (rs & F & E). revert a E. induction F as [|r rs Hr F IH]; intros a E; [destruct a; discriminate|]. cbn [flat_map] in E. symmetry in E.
  apply app_eq_app in E as (l & [[E1 E2]|[E1 E2]]).
  - destruct l as [|x l].
    + rewrite app_nil_r in E1. destruct (IH [] E2) as [_ Hb]. split; [|exact Hb]. rewrite <- E1. exists [r]. split; [now constructor|]. cbn. now rewrite app_nil_r.
    + injection E2 as <- E2. pose proof (utf8_single r c Hr L ltac:(rewrite E1; apply in_or_app; right; now left)) as K. rewrite K in E1.
      destruct a as [|y a]; [|destruct a; discriminate]. injection E1 as E1. subst l. cbn [app] in E2. split; [exists []; now split|]. exists rs. now split.
  - destruct (IH l (eq_sym E2)) as [Ha Hb]. split; [|exact Hb]. rewrite E1. apply utf8_app; [|exact Ha]. exists [r]. split; [now constructor|]. cbn. now rewrite app_nil_r.
Qed.
Lemma utf8_nil : utf8_text []. Proof. exists []. now split. Qed.
Lemma utf8_plain u s : Forall (fun c => (b2n c < 128)%N) u -> (utf8_text (u ++ s) <-> utf8_text s).
Proof.
  intros F. induction F as [|c u Hc F IH]; [reflexivity|]. change ((c :: u) ++ s) with ([] ++ c :: u ++ s). rewrite utf8_cut by exact Hc. rewrite IH.
  split; [now intros [_ H]|]. intros H. split; [apply utf8_nil|exact H].
Qed.
Lemma utf8_lg : forall s a, utf8_text (a ++ lg s) <-> utf8_text (a ++ s).
Proof.
  assert (G : forall n s a, length s <= n -> (utf8_text (a ++ lg s) <-> utf8_text (a ++ s))).
  { induction n as [|n IH]; intros s a L; [destruct s; [reflexivity|cbn in L; lia]|].
    destruct (legacy_cases s) as [(p & c & r & H & ->)|H].
    - rewrite (legacy_unescape_seq p c r H). pose proof (pair_seq _ _ H) as (_ & P & _). rewrite app_length in L.
      assert (A : exists p0 q, p = p0 :: q /\ (b2n p0 < 128)%N /\ Forall (fun x => (b2n x < 128)%N) q /\ (b2n c < 128)%N).
      { clear - H. repeat (destruct H as [H|H]; [injection H as <- <-; eexists _, _; split; [reflexivity|]; split; [reflexivity|split; [|reflexivity]]; repeat constructor|]). destruct H. }
      destruct A as (p0 & q & -> & A1 & A2 & A3). rewrite utf8_cut by exact A3. cbn [app]. rewrite utf8_cut by exact A1. rewrite utf8_plain by exact A2.
      pose proof (IH r [] ltac:(lia)) as K. cbn [app] in K. rewrite K. reflexivity.
    - destruct s as [|c s]; [reflexivity|]. rewrite legacy_unescape_byte by exact H. cbn in L. pose proof (IH s (a ++ [c]) ltac:(lia)) as K.
      rewrite <- !app_assoc in K. exact K. }
  intros s a. now apply (G (length s)).
Qed.
Lemma utf8_lg0 s : utf8_text (lg s) <-> utf8_text s.
Proof. exact (utf8_lg s []). Qed.
Lemma utf8_sep l : l <> [] -> (utf8_text (sep_by (B "\") l) <-> Forall utf8_text l).
Proof.
  induction l as [|x l IH]; [congruence|]. intros _. destruct l as [|y l].
  - cbn [sep_by]. split; [intros H; now constructor|intros H; now inversion H].
  - change (sep_by (B "\") (x :: y :: l)) with (x ++ "\"%byte :: sep_by (B "\") (y :: l)). rewrite utf8_cut by reflexivity. rewrite IH by discriminate.
    split; [intros [H1 H2]; now constructor|intros H; inversion H; auto].
Qed.

(** ** Searches *)
Definition undollar (c : byte) : byte := if beq c "$" then " "%byte else c.
Lemma dollars_len s : length (dollars s) = length s.
Proof. apply map_length. Qed.
Lemma undollar_no s : ~ In "$"%byte (map undollar s).
Proof. intros H. apply in_map_iff in H as (c & E & _). unfold undollar in E. destruct (beq_spec c "$"); congruence. Qed.
Lemma no_legacy_back s : no_legacy (dollars s) -> no_legacy s.
Proof.
  intros H p Hp (a & r & ->). apply (H p Hp). exists (dollars a), (dollars r). unfold dollars. rewrite !map_app. f_equal. f_equal.
  clear - Hp. repeat (destruct Hp as [<-|Hp]; [reflexivity|]). destruct Hp.
Qed.
Lemma utf8_back s : utf8_text (dollars s) -> ~ In "$"%byte s -> utf8_text s.
Proof.
  assert (G : forall n s, length s <= n -> forall a, utf8_text (a ++ dollars s) -> ~ In "$"%byte s -> utf8_text (a ++ s)).
  { induction n as [|n IH]; intros t L a U N; [destruct t; [exact U|cbn in L; lia]|]. destruct t as [|c t]; [exact U|]. cbn in L.
    assert (N' : ~ In "$"%byte t) by (intros K; apply N; now right). unfold dollars in U. cbn [map] in U. fold (dollars t) in U. destruct (beq_spec c " ") as [->|E].
    - apply utf8_cut in U as [U1 U2]; [|reflexivity]. apply utf8_cut; [reflexivity|]. split; [exact U1|]. exact (IH t ltac:(lia) [] U2 N').
    - pose proof (IH t ltac:(lia) (a ++ [c])) as K. rewrite <- !app_assoc in K. exact (K U N'). }
  intros U N. exact (G (length s) s (le_n _) [] U N).
Qed.
Definition entity_pattern (c : byte) : bytes := if beq c "$" then [c] else entity_string c.
Lemma pattern_shape c : entity_pattern c = [c] /\ c <> "&"%byte \/ exists r, entity_pattern c = "&"%byte :: r /\ ~ In "/"%byte r /\ forall t, html_unescape (entity_pattern c ++ t) = c :: html_unescape t.
Proof. unfold entity_pattern. destruct (beq_spec c "$") as [->|E]; [left; now split|apply es_shape]. Qed.
Lemma pattern_plain c : ~ In c (B "&<>$|") -> entity_pattern c = [c].
Proof. intros H. unfold entity_pattern. destruct (beq c "$"); [reflexivity|]. apply es_plain. intros K. apply H. cbn in K |- *. tauto. Qed.
Lemma dollars_es p : ~ In "$"%byte p -> dollars (es p) = flat_map entity_pattern (dollars p).
Proof.
  induction p as [|c p IH]; [reflexivity|]. intros N. cbn [flat_map]. unfold dollars at 1. rewrite map_app. fold (dollars (es p)). rewrite IH by (intros K; apply N; now right).
  change (dollars (c :: p)) with ((if beq c " " then "$"%byte else c) :: dollars p). cbn [flat_map]. f_equal. assert (D : c <> "$"%byte) by (intros ->; apply N; now left).
  destruct (beq_spec c " ") as [->|E]; [reflexivity|]. unfold entity_pattern. rewrite (proj2 (beq_false c "$") D).
  destruct (es_shape c) as [[K _]|(r & K & _)]; [rewrite K; cbn [map]; now rewrite (proj2 (beq_false c " ") E)|].
  assert (H : forall x, In x (entity_string c) -> x <> " "%byte). { intros x Hx ->. apply es_bytes in Hx as [[Q _]|Hx]; [congruence|]. now apply space_sep in Hx. }
  clear - H. induction (entity_string c) as [|x l IH]; [reflexivity|]. cbn [map]. rewrite (proj2 (beq_false x " ")) by (apply H; now left). f_equal. apply IH. intros y Hy. apply H. now right.
Qed.
Lemma unescape_pattern p : ~ In "$"%byte p -> unescape_bytes (dollars (es p)) = lg (dollars p).
Proof. intros N. rewrite (dollars_es p N), unescape_two. apply lg_f; [apply pattern_shape|apply pattern_plain]. Qed.
Lemma pattern_arrives p q : str_read None (dollars (es p)) q -> p = map undollar q -> t_ok p /\ ~ In "$"%byte p.
Proof.
  intros [Z R] E. assert (N : ~ In "$"%byte p) by (rewrite E; apply undollar_no). split; [|exact N].
  apply text_none in R as [Q U]. rewrite unescape_pattern in Q by exact N.
  assert (L : length (lg (dollars p)) = length (dollars p)) by (rewrite <- Q, dollars_len; rewrite E; now rewrite map_length).
  pose proof (lg_same _ L) as NL. rewrite (legacy_unescape_id _ NL) in Q. subst q.
  split; [now apply utf8_back|]. split; [|now apply no_legacy_back]. intros K. apply Z. unfold dollars. apply in_map_iff. exists x00. split; [reflexivity|]. apply in_es; [not_in|exact K].
Qed.
Lemma dec_not_nil n : dec_text n <> [].
Proof. intros E. pose proof (dec_decimal n) as D. rewrite E in D. inversion D; congruence. Qed.
Lemma cut_same c (a b a' b' : bytes) : ~ In c a -> ~ In c a' -> a ++ c :: b = a' ++ c :: b' -> a = a' /\ b = b'.
Proof. intros N N' E. pose proof (first1 c a b N) as F. rewrite E in F. exact (first_unique _ _ _ _ _ _ F (first1 c a' b' N')). Qed.
Lemma who_arrives a u who x r rest addr user : who_write None a u who -> first (B " ") (who ++ " "%byte :: rest) x r ->
  (exists n, x = B "Hub:" ++ n /\ name_read None n user /\ addr = []) \/ (~ starts_with (B "Hub:") x /\ addr = x /\ user = []) ->
  addr = a -> user = u ->
  r = rest /\ (a <> [] /\ ~ In " "%byte a /\ ~ starts_with (B "Hub:") a /\ u = [] \/ a = [] /\ n_ok u /\ ~ In " "%byte u).
Proof.
  intros W F R -> ->. destruct W as [u pu W|a u Na].
  - apply name_write_none in W as (_ & C & ->). assert (E : B "Hub:" ++ en u = en (B "Hub:" ++ u)) by (rewrite en_app; reflexivity).
    rewrite E in F. change (" "%byte :: rest) with ([" "%byte] ++ rest) in F. destruct (first_esc _ en_bytes " " [] _ _ _ _ space_sep F) as [[-> ->]|(s1 & s2 & E1 & ->)].
    + split; [reflexivity|]. right. split; [reflexivity|]. rewrite <- E in R, F. destruct R as [(n & E1 & R & _)|(R & _)]; [|exfalso; apply R; eexists; reflexivity].
      apply app_inv_head in E1. subst n. split; [apply n_ok_iff; auto|]. apply first1_in in F. intros K. apply F. apply in_or_app. right. apply in_en; [not_in|exact K].
    + exfalso. apply app_eq_app in E1 as (l & [[E1 E2]|[E1 E2]]).
      * destruct l as [|y l]; [rewrite app_nil_r in E1; rewrite <- E1 in R; destruct R as [(n & E3 & R & _)|(R & _)]; [|apply R; exists []; reflexivity]|].
        -- change (en (B "Hub:")) with (B "Hub:" ++ []) in E3. apply app_inv_head in E3. subst n. destruct R as (_ & _ & R). apply text_none in R as [Q _]. cbn in Q. subst u. discriminate.
        -- injection E2 as <- _. apply (f_equal (fun v => In " "%byte v)) in E1. assert (K : In " "%byte (B "Hub:")) by (rewrite E1; apply in_or_app; right; now left). revert K. not_in.
      * subst s1. rewrite en_app in R. change (en (B "Hub:")) with (B "Hub:") in R. destruct R as [(n & E3 & R & _)|(R & _)]; [|apply R; eexists; reflexivity].
        apply app_inv_head in E3. subst n. destruct R as (_ & _ & R). apply text_none in R as [Q _]. rewrite unescape_en in Q. pose proof (lg_len l) as G. rewrite <- Q, E2, app_length in G. cbn in G. lia.
  - destruct R as [(n & _ & _ & K)|(N & <- & ->)]; [congruence|]. pose proof (first1_in _ _ _ _ F) as S. split.
    + destruct F as [E _]. apply app_inv_head in E. now injection E as ->.
    + left. auto.
Qed.
Lemma search_arrives m : sized (MSearch m) -> arrives (MSearch m) <-> fits (MSearch m).
Proof.
  destruct m as [a u r x size typ p tth]. cbn [fits sized]. unfold search_fits. cbn [se_address se_user se_restricted se_ismax se_size se_dtype se_pattern se_tth]. intros Z. split.
  - arr. match goal with H : search_write _ _ _ |- _ => inversion H as [aa ua ra xa sa ta pa ha who what Hw Ht]; subst; clear H end.
    match goal with H : search_read _ _ _ |- _ => inversion H as [data w2 r2 f2 f3 f4 ad us rs rs' mx sz ty pt th F Wh E N2 N3 Sz Ty Wt]; subst; clear H end.
    change (B " " ++ ?y) with (" "%byte :: y) in F. destruct (who_arrives _ _ _ _ _ _ _ _ Hw F Wh eq_refl eq_refl) as [E Who]. split; [exact Who|]. clear Who Wh F.
    assert (Q : rs = r /\ x = (negb r || x)%bool /\ f2 ++ "?"%byte :: f3 ++ "?"%byte :: f4 = dec_text size ++ "?"%byte :: dec_text (if (typ =? 0)%N then 1%N else typ) ++ "?"%byte :: what).
    { revert E. unfold restriction, flag_text. destruct r, x, rs; intros E; cbn in E; try discriminate; injection E as E; (split; [reflexivity|split; [reflexivity|exact E]]). }
    clear E. destruct Q as (-> & Ex & E). apply cut_same in E as [-> E]; [|exact N2|apply dec_nodigit; right; reflexivity]. apply cut_same in E as [-> ->]; [|exact N3|apply dec_nodigit; right; reflexivity].
    apply uint_dec in Ty as [Ty Ut]. assert (T0 : typ <> 0%N) by (intros ->; discriminate). rewrite (proj2 (N.eqb_neq _ _) T0) in *.
    split; [destruct r; [discriminate|intros _; exact Ex]|]. split.
    { inversion Sz as [Q|y n K Q|s n K K2]; subst.
      - symmetry in Q; now apply dec_not_nil in Q.
      - exfalso. match type of Q with _ = dec_text ?k => apply (dec_nodigit k "-"); [left; reflexivity|]; rewrite <- Q; now left end.
      - now apply uint_dec in K2 as [_ K2]. }
    split; [exact Ut|]. split; [exact T0|]. inversion Ht as [p1 h t Hh|typ1 p1 tth1 pp T9 Hp]; subst.
    + left. split; [reflexivity|]. inversion Wt; subst; [split; [reflexivity|]; eexists; split; [reflexivity|exact Z]|split; [reflexivity|]; eexists; split; [reflexivity|exact Z]].
    + right. split; [exact T9|]. apply str_write_none in Hp as [_ ->]. inversion Wt as [s h K|s h K|s q K R]; subst; try congruence. split; [reflexivity|]. eapply pattern_arrives; [exact R|reflexivity].
  - intros (Who & Rx & Us & Ut & T0 & Wt).
    assert (W : exists who, who_wire None None a u who).
    { destruct Who as [(Na & S & H & ->)|(-> & N & S)]; [exists a; left; auto|]. exists (B "Hub:" ++ en u). right. split; [reflexivity|]. exists u. split; [now apply n_ok_text|auto]. }
    destruct W as [who W]. destruct Wt as [(-> & -> & h & -> & Hh)|(T9 & -> & T & D)].
    + eapply arrives_wire; [exact Z|exact I|]. constructor. apply sw_tth with (who := who) (t := hash_base32 h); try assumption. now apply hash_spelled_iff.
    + eapply arrives_wire; [exact Z|exact I|]. constructor. apply sw_pattern with (who := who) (wp := p); try assumption. split; [now apply t_ok_text|]. split; [exact D|]. split; [exact D|]. reflexivity.
Qed.

(** ** Search results *)
Lemma es_longer s : length s <= length (es s).
Proof. induction s as [|c s IH]; [reflexivity|]. cbn [flat_map]. rewrite app_length. pose proof (es_not_nil c) as N. destruct (entity_string c); [congruence|]. cbn in *. lia. Qed.
Lemma es_same s : length (es s) <= length s -> es s = s /\ ~ In "&"%byte s /\ ~ In "$"%byte s /\ ~ In "|"%byte s.
Proof.
  induction s as [|c s IH]; intros H; [repeat split; intros []|]. cbn [flat_map] in *. rewrite app_length in H. cbn [length] in H. pose proof (es_longer s) as L. pose proof (es_not_nil c) as N.
  assert (K : length (entity_string c) = 1) by (destruct (entity_string c); [congruence|cbn in *; lia]). destruct IH as (E & A1 & A2 & A3); [lia|]. rewrite E.
  destruct (byte_eq_dec c "&") as [->|D1]; [discriminate|]. destruct (byte_eq_dec c "$") as [->|D2]; [discriminate|]. destruct (byte_eq_dec c "|") as [->|D3]; [discriminate|].
  rewrite es_plain by (cbn; intuition congruence). cbn [In]. repeat split; intuition congruence.
Qed.
Lemma es_id s : ~ In "&"%byte s -> ~ In "$"%byte s -> ~ In "|"%byte s -> es s = s.
Proof.
  induction s as [|c s IH]; [reflexivity|]. cbn [In flat_map]. intros A1 A2 A3. rewrite es_plain by (cbn; intuition congruence). rewrite IH by tauto. reflexivity.
Qed.
Lemma in_sep c l x : In x l -> In c x -> In c (sep_by (B "\") l).
Proof.
  induction l as [|y l IH]; [intros []|]. intros Hx Hc. destruct l as [|z l].
  - destruct Hx as [->|[]]. exact Hc.
  - change (sep_by (B "\") (y :: z :: l)) with (y ++ B "\" ++ sep_by (B "\") (z :: l)). rewrite !in_app_iff. destruct Hx as [->|Hx]; [now left|]. right. right. now apply IH.
Qed.
Lemma no_sep c l : c <> "\"%byte -> Forall (fun p => ~ In c p) l -> ~ In c (sep_by (B "\") l).
Proof. intros D F K. rewrite sep_by_join in K. apply join_in in K as [K|(x & Hx & K)]; [destruct K as [K|[]]; now apply D|]. rewrite Forall_forall in F. now apply (F x Hx). Qed.
Definition piece (p : bytes) : Prop := utf8_text p /\ Forall (fun c => ~ In c p) [x00; "&"%byte; "$"%byte; "|"%byte; "\"%byte; x05].
Lemma piece_iff path : path <> [] ->
  (Forall piece path <-> es (sep_by (B "\") path) = sep_by (B "\") path /\ ~ In x05 (sep_by (B "\") path) /\ path_read None (sep_by (B "\") path) path).
Proof.
  intros NP. split.
  - intros F. assert (G : forall c, In c [x00; "&"%byte; "$"%byte; "|"%byte; "\"%byte; x05] -> Forall (fun p => ~ In c p) path).
    { intros c Hc. eapply Forall_impl; [|exact F]. intros p [_ P]. rewrite Forall_forall in P. now apply P. }
    assert (E : es (sep_by (B "\") path) = sep_by (B "\") path) by (apply es_id; apply no_sep; try discriminate; apply G; cbn; tauto).
    split; [exact E|]. split; [apply no_sep; [discriminate|apply G; cbn; tauto]|]. split.
    + exists (lg (sep_by (B "\") path)). split; [apply no_sep; [discriminate|apply G; cbn; tauto]|]. apply text_none. split; [rewrite <- E at 2; now rewrite unescape_es|].
      apply utf8_lg0, utf8_sep; [exact NP|]. eapply Forall_impl; [|exact F]. intros p [U _]. exact U.
    + apply split_on_byte. rewrite sep_by_join. symmetry. apply split_byte_join; [exact NP|]. intros x Hx. pose proof (G "\"%byte ltac:(cbn; tauto)) as K. rewrite Forall_forall in K. now apply K.
  - intros (E & N5 & [t [Z R]] & Sp). apply text_none in R as [Q U]. rewrite <- E in Q at 1. rewrite unescape_es in Q. subst t. apply utf8_lg0, utf8_sep in U; [|exact NP].
    destruct (es_same (sep_by (B "\") path)) as (_ & A1 & A2 & A3); [rewrite E; lia|]. apply split_on_byte in Sp.
    apply Forall_forall. intros x Hx. rewrite Forall_forall in U. split; [now apply U|]. repeat constructor; try (intros K; pose proof (in_sep _ _ _ Hx K); contradiction).
    rewrite Sp in Hx. now apply split_byte_pieces in Hx.
Qed.
Lemma es_starts4 s r : starts_with (B "TTH:") (es s ++ B " (" ++ r) -> starts_with (B "TTH:") s.
Proof.
  intros [q E].
  assert (K : forall u (x : byte) t, ~ In x (B "& ") -> es u ++ B " (" ++ r = x :: t -> exists u', u = x :: u' /\ es u' ++ B " (" ++ r = t).
  { intros u x t N Eq. destruct u as [|c u]; [injection Eq as <- _; exfalso; apply N; cbn; tauto|]. cbn [flat_map] in Eq. rewrite <- app_assoc in Eq.
    destruct (es_shape c) as [[Q _]|(w & Q & _)]; rewrite Q in Eq; injection Eq as <- Eq; [eauto|exfalso; apply N; cbn; tauto]. }
  apply K in E as (s1 & -> & E); [|not_in]. apply K in E as (s2 & -> & E); [|not_in]. apply K in E as (s3 & -> & E); [|not_in]. apply K in E as (s4 & -> & _); [|not_in]. now exists s4.
Qed.
Lemma sub_es c d s : ~ ent_byte c -> (forall x, In c (entity_string x) -> x = c) -> entity_string c = [c] -> entity_string d = [d] -> (forall x y, entity_string x = d :: y -> x = d) ->
  (substring [c; d] (es s) <-> substring [c; d] s).
Proof.
  intros Nc _ Ec Ed Hd. split.
  - intros (a & r & E). cbn [app] in E. destruct (cut_back _ es_bytes c Nc _ _ _ E) as (s1 & s2 & -> & -> & E2). destruct s2 as [|y s2]; [discriminate|]. cbn [flat_map] in E2.
    exists s1, s2. assert (y = d); [|now subst]. destruct (entity_string y) as [|z l] eqn:Q; [now apply es_not_nil in Q|]. injection E2 as <- _. now apply (Hd y l).
  - intros (a & r & ->). exists (es a), (es r). rewrite !es_app. cbn [flat_map app]. rewrite Ec, Ed. reflexivity.
Qed.
Lemma sub_paren s : substring (B " (") (es s) <-> substring (B " (") s.
Proof.
  apply sub_es; try reflexivity; [apply space_sep|intros x Hx; apply es_bytes in Hx as [[-> _]|Hx]; [reflexivity|now apply space_sep in Hx]|].
  intros x y E. destruct (es_shape x) as [[K _]|(w & K & _)]; rewrite K in E; [now injection E as ->|discriminate].
Qed.
Lemma hub_arrives hub tth ph tail rest : match tth with Some h => length h = 24 | None => True end ->
  match tth with Some h => exists t, hash_spelled h t /\ ph = B "TTH:" ++ t | None => str_write None hub ph end ->
  (hub_read None (ph ++ B " (" ++ tail) hub tth rest <-> rest = tail /\
   match tth with Some h => h_ok h /\ hub = [] | None => t_ok hub /\ ~ starts_with (B "TTH:") hub /\ ~ substring (B " (") hub end).
Proof.
  intros Z W. destruct tth as [h|].
  - destruct W as (t & Hs & ->). split.
    + rewrite <- app_assoc. intros R. inversion R as [t2 h2 r2 L2 H2 E2|]; subst. destruct Hs as (_ & L & _).
      apply len_app_inj in E2 as [_ E2]; [|congruence]. injection E2 as ->. split; [reflexivity|]. split; [exact Z|reflexivity].
    + intros (-> & _ & ->). rewrite <- app_assoc. apply hbr_hash; [apply Hs|]. now apply tth_iff, tth_new.
  - apply str_write_none in W as [_ ->]. split.
    + intros R. inversion R as [|s n r2 hb NT F S]; subst. destruct (first_str " " (B "(") hub tail n rest space_sep F S) as (-> & -> & T). split; [reflexivity|]. split; [exact T|]. split.
      * intros [q ->]. apply NT. exists (es q ++ B " (" ++ tail). rewrite es_app, <- app_assoc. reflexivity.
      * intros K. apply sub_paren in K as (a & r & E). destruct F as [_ M]. specialize (M a (r ++ B " (" ++ tail)). rewrite E in M at 1. rewrite <- !app_assoc in M. specialize (M eq_refl). rewrite E, !app_length in M. cbn in M. lia.
    + intros (-> & T & NT & NS). apply hbr_name with (n := es hub); [intros K; now apply es_starts4 in K| |now apply t_ok_iff].
      apply first_cut_seq, cut_seq_app; [discriminate|]. change (removelast (B " (")) with (B " "). intros K. apply NS. apply sub_paren. destruct K as (a & r & E). exists a.
      destruct r as [|y r] using rev_ind; [exfalso; rewrite app_nil_r in E; change (B " (") with (B " " ++ B "(") in E; rewrite app_assoc in E; apply app_inj_tail in E as [_ E]; discriminate|].
      clear IHr. exists r. rewrite !app_assoc in E. apply app_inj_tail in E as [E _]. rewrite <- app_assoc in E. exact E.
Qed.
Lemma n_ok_nil : n_ok [].
Proof.
  split; [apply utf8_nil|]. split; [cbn; lia|]. split; [repeat split; intros []|]. intros p Hp (a & r & E). symmetry in E. apply app_eq_nil in E as [_ E]. apply app_eq_nil in E as [-> _]. cbn in Hp. intuition discriminate.
Qed.
Lemma en_nil s : en s = [] -> s = [].
Proof. destruct s as [|c s]; [reflexivity|]. cbn [flat_map]. intros E. apply app_eq_nil in E as [E _]. now apply en_not_nil in E. Qed.
Lemma target_arrives to pto : (to = [] /\ pto = [] \/ to <> [] /\ exists q, name_write None to q /\ pto = x05 :: q) -> (target_read None pto to <-> n_ok to).
Proof.
  intros [[-> ->]|(N & q & W & ->)]; [split; [intros _; apply n_ok_nil|intros _; constructor]|]. apply name_write_none in W as (_ & C & ->). split.
  - intros R. inversion R; subst. apply n_ok_iff. auto.
  - intros H. constructor; [intros E; apply N; now apply en_nil|]. now apply n_ok_iff in H as [_ H].
Qed.
Lemma int_slots z : (0 <= z)%Z -> Forall slot_char (int_text z).
Proof. intros P. apply Forall_forall. intros c Hc. unfold int_text in Hc. rewrite (proj2 (Z.ltb_ge _ _) P) in Hc. right. now apply dec_digit in Hc. Qed.
Lemma slots_int z : Forall slot_char (int_text z) -> (0 <= z)%Z.
Proof.
  unfold int_text. destruct (Z.ltb_spec z 0) as [L|L]; [|auto]. intros F. inversion F as [|? ? [K|K]]; [discriminate|]. exfalso. unfold digit_char in K. cbn in K. lia.
Qed.
Lemma space_slot : ~ slot_char " ". Proof. intros [K|K]; [discriminate|]. unfold digit_char in K. cbn in K. lia. Qed.
Lemma slots_cut U E c d s : length U <= length E -> U ++ c :: d = E ++ " "%byte :: s -> Forall slot_char d -> U = E /\ c = " "%byte /\ d = s.
Proof.
  intros L Eq F. destruct (Nat.eq_dec (length U) (length E)) as [K|K].
  - apply len_app_inj in Eq as [-> Eq]; [|exact K]. injection Eq as -> ->. auto.
  - exfalso. apply app_eq_app in Eq as (l & [[E1 E2]|[E1 E2]]); [rewrite E1, app_length in L; assert (length l = 0) by lia; apply K; rewrite E1, app_length; lia|].
    destruct l as [|x l]; [rewrite app_nil_r in E1; subst; now apply K|]. injection E2 as <- E2. rewrite E2, Forall_app in F. destruct F as [_ F]. inversion F as [|? ? F1]; subst. now apply space_slot.
Qed.
Lemma int_no5 z : ~ In x05 (int_text z). Proof. apply int_nodigit. left. reflexivity. Qed.
Lemma dec_no5 z : ~ In x05 (dec_text z). Proof. apply dec_nodigit. left. reflexivity. Qed.
Lemma int_noslash z : ~ In "/"%byte (int_text z). Proof. apply int_nodigit. right. left. reflexivity. Qed.
Lemma slots_no5 a b : ~ In x05 (int_text a ++ B "/" ++ int_text b).
Proof. rewrite !in_app_iff. intros [K|[K|K]]; [now apply int_no5 in K|revert K; not_in|now apply int_no5 in K]. Qed.
Lemma sr_arrives m : sized (MSR m) -> arrives (MSR m) <-> fits (MSR m).
Proof.
  destruct m as [fr path isdir size free total hub tth addr to]. cbn [fits sized]. unfold sr_fits. cbn [sr_from sr_path sr_isdir sr_size sr_free sr_total sr_hubname sr_tth sr_hubaddr sr_to]. intros Z. fold piece. split.
  - arr. match goal with H : sr_write _ _ _ |- _ => inversion H as [f' pa' is' si' fe' to' hu' tt' ad' tg' pf pp ph pto Wf NP Wp Wh Wt]; subst; clear H end.
    apply write_strs in Wp. subst pp. rewrite sep_es in *. apply name_write_none in Wf as (_ & Cf & ->).
    match goal with H : sr_read _ _ _ |- _ => inversion H as [data n r1 x r2 from p2 pa2 is2 si2 slots r3 fz tz fe2 to2 hu2 tt2 rest ad2 r4 tg2 F1 R1 F2 Cs Pr Fs Rf Rt Hr Fa Tr]; subst; clear H end.
    set (U := sep_by (B "\") path) in *. assert (EU : p2 = U).
    { destruct Pr as [_ Sp]. apply split_on_byte in Sp. unfold U. rewrite Sp, sep_by_join. symmetry. apply join_split_byte. }
    subst p2. destruct (first_name " " [] fr _ _ _ space_sep Cf F1 R1) as (-> & -> & Nf). pose proof (first1_in _ _ _ _ F1) as S1. split; [exact Nf|].
    split; [intros K; apply S1; apply in_en; [not_in|exact K]|]. split; [exact NP|]. clear F1 R1 S1.
    assert (N5 : In x05 (es U) <-> In x05 U) by (apply in_es; not_in).
    assert (Q : es U = U /\ ~ In x05 U /\ slots = int_text free ++ B "/" ++ int_text total /\ r3 = ph ++ B " (" ++ addr ++ B ")" ++ pto /\
                (isdir = false /\ ~ slots_like U /\ u64 size \/ isdir = true /\ size = 0%N /\ (0 <= free)%Z /\ (0 <= total)%Z)).
    { destruct Cs as [(-> & -> & -> & c & -> & Nc & Fc & Sc)|(-> & NS & <- & ss & s & G1 & G2 & Rs)].
      - pose proof (first1_in _ _ _ _ F2) as X5. assert (U5 : ~ In x05 U) by (intros K; apply X5; apply in_or_app; now left).
        assert (F3 : first [x05] ((es U ++ B " " ++ int_text free ++ B "/" ++ int_text total) ++ x05 :: ph ++ B " (" ++ addr ++ B ")" ++ pto) (U ++ [c] ++ slots) r2).
        { rewrite <- !app_assoc. exact F2. }
        apply first_plain in F3 as [F3 ->]; [|rewrite !in_app_iff; intros [K|[K|K]]; [tauto|revert K; not_in|apply (slots_no5 free total); rewrite !in_app_iff; exact K]].
        destruct (slots_cut U (es U) c slots (int_text free ++ B "/" ++ int_text total) (es_longer U) F3 Fc) as (E & -> & ->).
        split; [now symmetry|]. split; [exact U5|]. split; [reflexivity|]. split; [reflexivity|]. right. split; [reflexivity|]. split; [reflexivity|].
        apply Forall_app in Fc as [Fc1 Fc2]. apply Forall_app in Fc2 as [_ Fc2]. split; now apply slots_int.
      - pose proof (first1_in _ _ _ _ F2) as U5. apply first_plain in F2 as [F2 ->]; [|tauto].
        assert (G3 : first [x05] ((dec_text size ++ B " " ++ int_text free ++ B "/" ++ int_text total) ++ x05 :: ph ++ B " (" ++ addr ++ B ")" ++ pto) ss r3) by (rewrite <- !app_assoc; exact G1).
        apply first_plain in G3 as [-> ->]; [|rewrite !in_app_iff; intros [K|[K|K]]; [now apply dec_no5 in K|revert K; not_in|apply (slots_no5 free total); rewrite !in_app_iff; exact K]].
        apply first_plain in G2 as [-> ->]; [|apply dec_no_space]. apply uint_dec in Rs as [_ Us]. split; [now symmetry|]. split; [exact U5|]. split; [reflexivity|]. split; [reflexivity|]. left. auto. }
    clear Cs F2. destruct Q as (E & U5 & -> & -> & Cs). apply first_plain in Fs as [-> ->]; [|apply int_noslash]. apply int_int in Rf as [_ If]. apply int_int in Rt as [_ It].
    split; [apply piece_iff; [exact NP|]; split; [exact E|split; [exact U5|exact Pr]]|].
    apply (hub_arrives hub tth ph _ rest Z Wh) in Hr as [-> Hub]. pose proof (first1_in _ _ _ _ Fa) as A1. assert (Er : pto = r4) by (destruct Fa as [Fa _]; apply app_inv_head in Fa; now injection Fa).
    subst r4. apply (target_arrives to pto Wt) in Tr. split; [|auto]. destruct Cs as [(-> & NS & Us)|(-> & -> & P1 & P2)]; [left; auto|right]. unfold i64 in If, It. split; [reflexivity|]. split; [reflexivity|]. lia.
  - intros (Nf & Sf & NP & Fp & Cs & Hub & A1 & Nt). apply piece_iff in Fp as (E & U5 & Pr); [|exact NP]. set (U := sep_by (B "\") path) in *.
    assert (Wp : Forall2 (str_write None) path (map es path)).
    { assert (Z0 : ~ In x00 U) by (destruct Pr as [[t [K _]] _]; exact K). assert (G : forall x, In x path -> ~ In x00 x) by (intros x Hx K; apply Z0; now apply (in_sep _ _ x)).
      clear - G. induction path as [|x l IH]; constructor; [apply str_write_none; split; [apply G; now left|reflexivity]|apply IH; intros y Hy; apply G; now right]. }
    set (ph := match tth with Some h => B "TTH:" ++ hash_base32 h | None => es hub end).
    assert (Wh : match tth with Some h => exists t, hash_spelled h t /\ ph = B "TTH:" ++ t | None => str_write None hub ph end).
    { unfold ph. destruct tth as [h|]; [exists (hash_base32 h); split; [now apply hash_spelled_iff|reflexivity]|]. destruct Hub as [T _]. now apply t_ok_write. }
    set (pto := match to with [] => [] | _ => x05 :: en to end).
    assert (Wt : to = [] /\ pto = [] \/ to <> [] /\ exists q, name_write None to q /\ pto = x05 :: q).
    { unfold pto. destruct to as [|c to]; [now left|]. right. split; [discriminate|]. exists (en (c :: to)). split; [now apply n_ok_write|reflexivity]. }
    eexists. split; [constructor; apply srw with (pf := en fr) (ph := ph) (pto := pto); [now apply n_ok_write|exact NP|exact Wp|exact Wh|exact Wt]|].
    rewrite sep_es. fold U. rewrite E. constructor.
    assert (H1 : hub_read None (ph ++ B " (" ++ addr ++ B ")" ++ pto) hub tth (addr ++ B ")" ++ pto)) by (apply (hub_arrives hub tth ph _ _ Z Wh); auto).
    assert (H2 : target_read None pto to) by now apply (target_arrives to pto Wt).
    destruct Cs as [(-> & NS & Us & If & It)|(-> & -> & Pf & Pt)].
    + apply srr with (n := en fr) (r1 := U ++ (x05 :: dec_text size) ++ B " " ++ int_text free ++ B "/" ++ int_text total ++ [x05] ++ ph ++ B " (" ++ addr ++ B ")" ++ pto)
        (x := U) (p := U) (slots := int_text free ++ B "/" ++ int_text total) (r3 := ph ++ B " (" ++ addr ++ B ")" ++ pto) (f := int_text free) (t := int_text total)
        (rest := addr ++ B ")" ++ pto) (r4 := pto) (r2 := dec_text size ++ B " " ++ int_text free ++ B "/" ++ int_text total ++ [x05] ++ ph ++ B " (" ++ addr ++ B ")" ++ pto).
      * apply first1. intros K. apply Sf. now apply (proj1 (in_en " " fr ltac:(not_in))) in K.
      * now apply n_ok_iff in Nf as [_ Nf].
      * apply first1. exact U5.
      * right. split; [reflexivity|]. split; [exact NS|]. split; [reflexivity|]. exists (dec_text size ++ B " " ++ int_text free ++ B "/" ++ int_text total), (dec_text size).
        split; [|split; [apply first1, dec_no_space|now apply uint_dec]].
        replace (dec_text size ++ B " " ++ int_text free ++ B "/" ++ int_text total ++ [x05] ++ ph ++ B " (" ++ addr ++ B ")" ++ pto) with ((dec_text size ++ B " " ++ int_text free ++ B "/" ++ int_text total) ++ x05 :: ph ++ B " (" ++ addr ++ B ")" ++ pto) by (rewrite <- !app_assoc; reflexivity).
        apply first1. rewrite !in_app_iff; intros [K|[K|K]]; [now apply dec_no5 in K|revert K; not_in|apply (slots_no5 free total); rewrite !in_app_iff; exact K].
      * exact Pr.
      * apply first1, int_noslash.
      * now apply int_int.
      * now apply int_int.
      * exact H1.
      * now apply first1.
      * exact H2.
    + apply srr with (n := en fr) (r1 := U ++ [] ++ B " " ++ int_text free ++ B "/" ++ int_text total ++ [x05] ++ ph ++ B " (" ++ addr ++ B ")" ++ pto)
        (x := U ++ B " " ++ int_text free ++ B "/" ++ int_text total) (p := U) (slots := int_text free ++ B "/" ++ int_text total) (r3 := ph ++ B " (" ++ addr ++ B ")" ++ pto) (f := int_text free) (t := int_text total)
        (rest := addr ++ B ")" ++ pto) (r4 := pto) (r2 := ph ++ B " (" ++ addr ++ B ")" ++ pto).
      * apply first1. intros K. apply Sf. now apply (proj1 (in_en " " fr ltac:(not_in))) in K.
      * now apply n_ok_iff in Nf as [_ Nf].
      * replace (U ++ [] ++ B " " ++ int_text free ++ B "/" ++ int_text total ++ [x05] ++ ph ++ B " (" ++ addr ++ B ")" ++ pto) with ((U ++ B " " ++ int_text free ++ B "/" ++ int_text total) ++ x05 :: ph ++ B " (" ++ addr ++ B ")" ++ pto) by (rewrite <- !app_assoc; reflexivity).
        apply first1. rewrite !in_app_iff; intros [K|[K|K]]; [tauto|revert K; not_in|apply (slots_no5 free total); rewrite !in_app_iff; exact K].
      * left. split; [reflexivity|]. split; [reflexivity|]. split; [reflexivity|]. exists " "%byte. split; [reflexivity|]. split; [apply space_slot|]. split.
        -- apply Forall_app. split; [apply int_slots; lia|]. apply Forall_app. split; [constructor; [now left|constructor]|apply int_slots; lia].
        -- rewrite !in_app_iff. right. left. now left.
      * exact Pr.
      * apply first1, int_noslash.
      * apply int_int. split; [reflexivity|]. unfold i64. lia.
      * apply int_int. split; [reflexivity|]. unfold i64. lia.
      * exact H1.
      * now apply first1.
      * exact H2.
Qed.
