(** Which messages arrive unchanged: commands for menus and lists of addresses. *)
From Verif Require Import Base BaseFacts Num NumFacts NumSpec Utf8 Utf8Facts SpecText SpecHash SpecNmdc SpecFrame SpecRead SpecWrite SpecSurvive Html HtmlFacts HtmlReadFacts.
From Verif Require Import Base32 Tiger TigerFacts NmdcText NmdcTextFacts NmdcChat NmdcHub NmdcFiles NmdcUser NmdcMessage NmdcChatFacts NmdcHubFacts NmdcMsgFacts NmdcFrameFacts NmdcDecodeFacts NmdcWriteFacts.
From Verif Require Import NmdcReadFacts NmdcReadChat NmdcReadCmd NmdcReadFiles NmdcReadHub NmdcReadMsg NmdcSurviveFacts NmdcSurviveChat NmdcSurviveHub.

Notation es := (flat_map entity_string).
Notation en := (flat_map entity_name).
Notation lg := legacy_unescape.

(** ** White space *)
Definition white_byte (c : byte) : Prop := ~ digit_char c /\ c <> "$"%byte /\ ~ ent_byte c /\ c <> "&"%byte /\ c <> "|"%byte.
Lemma white_bytes w c : white w -> In c (utf8_of w) -> white_byte c.
Proof.
  unfold white_byte, digit_char, ent_byte. intros W. unfold white in W. cbn [In] in W.
  repeat (destruct W as [<-|W]; [intros H; vm_compute in H; repeat (destruct H as [<-|H]; [split; [intros [K1 K2]; vm_compute in K1, K2; congruence|]; split; [discriminate|]; split; [not_in|]; split; discriminate|]); destruct H|]).
  destruct W.
Qed.
Lemma blank_bytes s c : blank s -> In c s -> white_byte c.
Proof. intros (rs & F & ->) H. apply in_flat_map in H as (w & Hw & H). rewrite Forall_forall in F. exact (white_bytes w c (F w Hw) H). Qed.
Lemma es_white w : white w -> es (utf8_of w) = utf8_of w.
Proof.
  intros W. assert (F : forall c, In c (utf8_of w) -> entity_string c = [c]).
  { intros c Hc. apply es_plain. destruct (white_bytes w c W Hc) as (_ & D & _ & A & P). cbn. intuition congruence. }
  induction (utf8_of w) as [|c s IH]; [reflexivity|]. cbn [flat_map]. rewrite F by (now left). cbn [app]. f_equal. apply IH. intros x Hx. apply F. now right.
Qed.
(** Nothing is cut from text that starts with a digit before its first dollar sign. *)
Lemma trim_start c s core : digit_char c -> trimmed (c :: s) core -> exists b0, c :: s = core ++ b0 /\ blank b0 /\ ~ ends_white core.
Proof.
  intros D (a & b & E & Ba & Bb & _ & N). destruct a as [|x a]; [eauto|]. exfalso. injection E as -> _.
  destruct (blank_bytes (x :: a) x Ba ltac:(now left)) as [K _]. contradiction.
Qed.
Lemma trim_dollar X Y core b0 : core ++ b0 = X ++ "$"%byte :: Y -> blank b0 -> exists u, core = X ++ "$"%byte :: u /\ Y = u ++ b0.
Proof.
  intros E Bb. assert (N : ~ In "$"%byte b0) by (intros K; destruct (blank_bytes _ _ Bb K) as (_ & K2 & _); congruence).
  apply app_eq_app in E as (l & [[-> E]|[-> E]]).
  - destruct l as [|c l]; [|injection E as <- ->; exists l; auto]. exfalso. apply N. cbn in E. rewrite <- E. now left.
  - exfalso. apply N. rewrite E. apply in_or_app. right. now left.
Qed.
Lemma dec_head n : exists c s, dec_text n = c :: s /\ digit_char c.
Proof. destruct (dec_decimal n) as (N & F & _). destruct (dec_text n) as [|c s]; [congruence|]. inversion F; subst. eauto. Qed.
Lemma dec_trim n X core b0 : core ++ b0 = X ++ dec_text n -> blank b0 -> b0 = [] /\ core = X ++ dec_text n.
Proof.
  intros E Bb. destruct b0 as [|c b0] using rev_ind; [rewrite app_nil_r in E; auto|]. exfalso. clear IHb0.
  assert (K : In c (dec_text n)).
  { destruct (dec_head n) as (x & s & En & _). destruct (dec_text n) as [|y t] eqn:Q using rev_ind; [discriminate|]. rewrite !app_assoc in E. apply app_inj_tail in E as [_ ->]. apply in_or_app. right. now left. }
  apply dec_digit in K. destruct (blank_bytes _ c Bb ltac:(apply in_or_app; right; now left)) as [K2 _]. contradiction.
Qed.
Lemma leading_dec n z : leading (dec_text n) z <-> int_read (dec_text n) z.
Proof.
  split.
  - intros (d & x & E & F & Hx & R). destruct x as [|c x]; [rewrite app_nil_r in E; congruence|]. exfalso. apply Hx, (dec_digit n). rewrite E. apply in_or_app. right. now left.
  - intros R. exists (dec_text n), []. rewrite app_nil_r. split; [reflexivity|]. split; [apply dec_decimal|auto].
Qed.
Lemma wrap_read t z : int_read (dec_text (wrap64 t)) z -> z = t -> (0 <= t < 2 ^ 63)%Z.
Proof.
  intros R ->. apply int_dec in R as [E U]. unfold wrap64, i64 in *. pose proof (Z.mod_pos_bound t (2 ^ 64) ltac:(lia)). rewrite Z2N.id in E by lia. lia.
Qed.
Lemma wrap_small t : (0 <= t < 2 ^ 63)%Z -> wrap64 t = Z.to_N t.
Proof. intros H. unfold wrap64. rewrite Z.mod_small by lia. reflexivity. Qed.

(** ** Paths *)
Definition total (l : list bytes) : nat := fold_right (fun x n => S (length x) + n) 0 l.
Lemma total_sep c l : l <> [] -> S (length (sep_by [c] l)) = total l.
Proof.
  induction l as [|x l IH]; [congruence|]. intros _. destruct l as [|y l]; [cbn; lia|]. change (sep_by [c] (x :: y :: l)) with (x ++ [c] ++ sep_by [c] (y :: l)). change (total (x :: y :: l)) with (S (length x) + total (y :: l)).
  rewrite !app_length. specialize (IH ltac:(discriminate)). change (length [c]) with 1. lia.
Qed.
Lemma total_cons x l : total (x :: l) = S (length x) + total l. Proof. reflexivity. Qed.
Lemma filled_cons c u us : filled ((c :: u) :: us) = (c :: u) :: filled us. Proof. reflexivity. Qed.
Lemma filled_nil us : filled ([] :: us) = filled us. Proof. reflexivity. Qed.
Lemma total_filled us : total (map lg (filled us)) <= total us.
Proof.
  induction us as [|u us IH]; [reflexivity|]. destruct u as [|c u]; [rewrite filled_nil, total_cons; lia|]. rewrite filled_cons. cbn [map]. rewrite !total_cons. pose proof (lg_len (c :: u)). lia.
Qed.
Lemma total_same us : total us <= total (map lg (filled us)) -> map lg (filled us) = us /\ Forall (fun u => u <> [] /\ no_legacy u) us.
Proof.
  induction us as [|u us IH]; [split; constructor|]. pose proof (total_filled us) as T. destruct u as [|c u].
  - rewrite filled_nil, total_cons. intros H. exfalso. lia.
  - rewrite filled_cons. cbn [map]. rewrite !total_cons. intros H. pose proof (lg_len (c :: u)) as L.
    destruct IH as [E F]; [lia|]. assert (N : no_legacy (c :: u)) by (apply lg_same; lia). rewrite (legacy_unescape_id _ N), E. split; [reflexivity|]. constructor; [split; [discriminate|exact N]|exact F].
Qed.
Lemma split_es s : split_byte "\" (es s) = map es (split_byte "\" s).
Proof.
  induction s as [|x s IH]; [reflexivity|]. cbn [flat_map]. destruct (byte_eq_dec x "\") as [->|D].
  - cbn [entity_string app split_byte]. change (entity_string "\") with (B "\"). cbn [app B split_byte]. rewrite !beq_refl. cbn [map]. now rewrite IH.
  - cbn [split_byte]. rewrite (proj2 (beq_false x "\")) by exact D.
    assert (K : forall u r, ~ In "\"%byte u -> split_byte "\" (u ++ r) = match split_byte "\" r with p :: ps => (u ++ p) :: ps | [] => [u] end).
    { induction u as [|y u IHu]; intros r N; [cbn; destruct (split_byte "\" r) eqn:Q; [now apply split_byte_not_nil in Q|reflexivity]|]. cbn [app split_byte]. rewrite (proj2 (beq_false y "\")) by (intros ->; apply N; now left).
      rewrite IHu by (intros Q; apply N; now right). destruct (split_byte "\" r); reflexivity. }
    rewrite K by (intros Q; apply es_bytes in Q as [[<- _]|Q]; [congruence|revert Q; unfold ent_byte; not_in]). rewrite IH.
    destruct (split_byte "\" s) as [|p ps] eqn:Q; [now apply split_byte_not_nil in Q|]. reflexivity.
Qed.
Lemma filled_es us : filled (map es us) = map es (filled us).
Proof.
  induction us as [|u us IH]; [reflexivity|]. cbn [map]. destruct u as [|c u]; [exact IH|]. rewrite filled_cons. cbn [map]. rewrite <- IH.
  destruct (es (c :: u)) eqn:E; [|reflexivity]. exfalso. cbn [flat_map] in E. apply app_eq_nil in E as [E _]. exact (es_not_nil c E).
Qed.
Lemma reads_lg us path : Forall2 (str_read None) (map es us) path -> path = map lg us /\ Forall utf8_text path /\ Forall (fun u => ~ In x00 u) us.
Proof.
  revert path. induction us as [|u us IH]; intros path F; inversion F as [|? s ? ps R Fs]; subst; [repeat constructor|].
  apply str_es in R as (-> & U & Z). destruct (IH ps Fs) as (-> & FU & FZ). split; [reflexivity|]. split; constructor; assumption.
Qed.
Lemma sep_es l : sep_by (B "\") (map es l) = es (sep_by (B "\") l).
Proof. induction l as [|x l IH]; [reflexivity|]. destruct l as [|y l]; [reflexivity|]. cbn [map sep_by] in *. rewrite IH, !es_app. reflexivity. Qed.
Lemma sep_last l : l <> [] -> exists a, sep_by (B "\") l = a ++ last l [].
Proof.
  induction l as [|x l IH]; [congruence|]. intros _. destruct l as [|y l]; [now exists []|]. destruct IH as [a E]; [discriminate|]. exists (x ++ B "\" ++ a). cbn [sep_by] in *. rewrite E, <- !app_assoc. reflexivity.
Qed.
Lemma path_arrives path p j : path <> [] -> es (sep_by (B "\") path) = p ++ repeat " "%byte j ->
  forall ps, split_on (B "\") p ps -> Forall2 (str_read None) (filled ps) path ->
  Forall (fun p => p <> [] /\ t_ok p /\ ~ In "\"%byte p) path /\ j = 0.
Proof.
  intros NP E ps Sp F. assert (Q : exists U' V, p = es U' /\ sep_by (B "\") path = U' ++ V /\ (V = [] -> j = 0)).
  { destruct j as [|j]; [cbn in E; rewrite app_nil_r in E; exists (sep_by (B "\") path), []; rewrite app_nil_r; auto|].
    cbn [repeat] in E. destruct (cut_back _ es_bytes " "%byte space_sep _ _ _ E) as (s1 & s2 & -> & -> & _). exists s1, (" "%byte :: s2). split; [reflexivity|]. split; [reflexivity|discriminate]. }
  destruct Q as (U' & V & -> & EU & HV). apply split_on_byte in Sp. rewrite split_es in Sp. subst ps. rewrite filled_es in F. apply reads_lg in F as (EP & FU & FZ).
  assert (T1 := total_sep "\" path NP). change ["\"%byte] with (B "\") in T1. rewrite EU, app_length in T1.
  assert (T2 := total_sep "\" (split_byte "\" U') (split_byte_not_nil "\" U')). rewrite sep_by_join, join_split_byte in T2.
  destruct (total_same (split_byte "\" U')) as [EQ FN]; [rewrite <- EP; lia|].
  rewrite EP, EQ in T1. assert (V = []) by (destruct V; [reflexivity|cbn in T1; lia]). subst V. split; [|auto].
  rewrite EP. rewrite EP in FU. rewrite EQ in *. apply Forall_forall. intros x Hx. rewrite Forall_forall in FN, FU. destruct (FN x Hx) as [N L].
  split; [exact N|]. split; [|now apply split_byte_pieces in Hx]. split; [auto|]. split; [|exact L].
  rewrite Forall_forall in FZ. apply FZ. unfold filled. apply filter_In. split; [exact Hx|]. destruct x; congruence.
Qed.

(** ** Commands *)
Lemma rep_space k : repeat " "%byte (S k) = repeat " "%byte k ++ B " ".
Proof. change (B " ") with (repeat " "%byte 1). rewrite <- repeat_app. f_equal. lia. Qed.
Lemma trim_data n X core : trimmed (dec_text n ++ X) core -> exists b0, core ++ b0 = dec_text n ++ X /\ blank b0 /\ ~ ends_white core.
Proof.
  destruct (dec_head n) as (c & s & E & D). rewrite E. intros T. destruct (trim_start c (s ++ X) core D T) as (b0 & E2 & H). exists b0. split; [symmetry; exact E2|exact H].
Qed.
Lemma write_strs l pl : Forall2 (str_write None) l pl -> pl = map es l.
Proof. induction 1 as [|s p l pl H _ ->]; [reflexivity|]. now apply str_write_none in H as (_ & ->). Qed.
Lemma ucmd_arrives m : arrives (MUserCommand m) <-> ucmd_fits m.
Proof.
  destruct m as [t c path cmd]. unfold ucmd_fits. cbn [uc_typ uc_context uc_path uc_command]. split.
  - arr. match goal with H : ucmd_write _ _ _ |- _ => inversion H as [t' c' path' cmd' pp rest FW Rest E1 E2]; subst; clear H end.
    apply write_strs in FW. subst pp.
    match goal with H : ucmd_read _ _ _ |- _ => inversion H as [d core a b ty cx Tr F1 NB R1 R2 E1 E2|d core a r b v p u k ps ty cx pa cm Tr F1 F2 R1 R2 F3 NE NS Sp Pa Cm E1 E2]; subst; clear H end.
    + destruct Rest as [[_ ->]|[K _]]; [|congruence]. rewrite app_nil_r in Tr. apply trim_data in Tr as (b0 & E & Bb & _). rewrite app_assoc in E. apply dec_trim in E as [_ ->]; [|exact Bb].
      rewrite <- app_assoc in F1. apply first_plain in F1 as [-> ->]; [|apply dec_no_space]. apply (proj1 (leading_dec _ _)) in R2.
      split; [exact (wrap_read t t R1 eq_refl)|]. split; [exact (wrap_read c c R2 eq_refl)|]. auto.
    + apply trim_data in Tr as (b0 & E & Bb & NW).
      assert (D : In "$"%byte (core ++ b0)).
      { destruct F1 as [-> _]. destruct F2 as [-> _]. destruct F3 as [-> _]. rewrite !in_app_iff. left. right. right. right. right. right. left. now left. }
      destruct Rest as [[-> ->]|(NC & pc & W & ->)].
      { exfalso. rewrite E, app_nil_r in D. rewrite !in_app_iff in D. destruct D as [D|[D|[D|D]]]; [revert D; apply dec_nodigit; now left|revert D; not_in|revert D; apply dec_nodigit; now left|].
        destruct path as [|x path]; [destruct D|]. rewrite sep_es in D. apply in_app_iff in D as [D|D]; [revert D; not_in|now apply es_nodollar in D]. }
      apply str_write_none in W as (_ & ->).
      assert (E2 : core ++ b0 = (dec_text (wrap64 t) ++ B " " ++ dec_text (wrap64 c) ++ (match path with [] => [] | _ => B " " ++ es (sep_by (B "\") path) end) ++ B " ") ++ "$"%byte :: es cmd).
      { rewrite E. destruct path; [|rewrite sep_es]; rewrite <- !app_assoc; reflexivity. }
      destruct (trim_dollar _ _ _ _ E2 Bb) as (u' & -> & Eu). rewrite <- !app_assoc in F1. cbn [app] in F1. apply first_plain in F1 as [-> ->]; [|apply dec_no_space].
      destruct path as [|x path].
      { exfalso. cbn [app] in F2. apply first_plain in F2 as [_ ->]; [|apply dec_no_space]. pose proof (first1_in _ _ _ _ F3) as K. destruct F3 as [F3 _].
        destruct (p ++ repeat " "%byte k) as [|z zs] eqn:Z; [now apply NE|]. injection F3 as <- _. apply K. now left. }
      rewrite <- app_assoc in F2. cbn [app] in F2. apply first_plain in F2 as [-> ->]; [|apply dec_no_space].
      change (" "%byte :: "$"%byte :: u') with (B " " ++ "$"%byte :: u') in F3. rewrite app_assoc in F3.
      apply first_plain in F3 as [EP ->]; [|rewrite in_app_iff; intros [K|K]; [now apply es_nodollar in K|revert K; not_in]].
      destruct k as [|j]; [exfalso; apply NS; exists (es (sep_by (B "\") (x :: path))); cbn [repeat] in EP; rewrite app_nil_r in EP; exact EP|].
      rewrite rep_space, app_assoc in EP. apply app_inj_tail in EP as [EP _]. symmetry in EP.
      destruct (path_arrives (x :: path) p j ltac:(discriminate) EP ps Sp Pa) as [FP ->]. cbn [repeat] in EP. rewrite app_nil_r in EP.
      apply (proj1 (leading_dec _ _)) in R2. split; [exact (wrap_read t t R1 eq_refl)|]. split; [exact (wrap_read c c R2 eq_refl)|]. right.
      split; [discriminate|]. split; [exact FP|]. split.
      { intros [y Y]. destruct (sep_last (x :: path) ltac:(discriminate)) as [z Z]. apply NS. exists (es (z ++ y)). rewrite <- EP, Z, Y, !es_app, <- app_assoc. reflexivity. }
      split; [exact NC|].
      assert (B0 : b0 = [] /\ u' = es cmd).
      { destruct b0 as [|w b0]; [rewrite app_nil_r in Eu; auto|]. exfalso. destruct (blank_bytes _ w Bb ltac:(now left)) as (_ & _ & K & _).
        destruct (cut_back _ es_bytes w K _ _ _ Eu) as (s1 & s2 & -> & -> & _). apply str_es in Cm as (Q & _). pose proof (lg_len s1) as L. rewrite <- Q, app_length in L. cbn in L. lia. }
      destruct B0 as [-> ->]. split; [now apply t_ok_iff|]. intros (y & w & W & Y). apply NW. rewrite Y, es_app, es_white by exact W. eexists _, w. split; [exact W|]. rewrite !app_comm_cons, !app_assoc. reflexivity.
  - intros (T & C & [[-> ->]|(NP & F & NL & NC & TC & NW)]).
    + eapply arrives_wire; [exact I|exact I|]. constructor. now apply uw_bare.
    + eapply arrives_wire; [exact I|exact I|]. constructor. apply uw_full with (ws := path) (wc := cmd); try assumption; [| |now apply t_ok_text].
      * clear NP NL. induction F as [|x l (N & H & S) _ IH]; [constructor|]. constructor; [split; [now apply t_ok_text|auto]|exact IH].
      * intros [y Y]. destruct (sep_last path NP) as [z Z]. apply NL. rewrite Z in Y.
        assert (NN : last path [] <> []) by (rewrite Forall_forall in F; apply F; destruct path as [|q l]; [congruence|]; clear; revert q; induction l as [|r l IH]; intros q; [now left|]; right; apply IH).
        destruct (last path []) as [|q l] using rev_ind; [congruence|]. rewrite app_assoc in Y. apply app_inj_tail in Y as [_ ->]. now exists l.
Qed.

(** ** Lists of addresses *)
Definition ip_text (e : bytes * bytes) : bytes := en (fst e) ++ B " " ++ snd e.
Lemma after_name u a : ~ In "$"%byte u -> substring (B "$$") (u ++ a) -> substring (B "$$") a.
Proof.
  intros N (x & r & E). apply app_eq_app in E as (l & [[E1 E2]|[E1 E2]]).
  - destruct l as [|c l]; [exists [], r; symmetry; exact E2|]. exfalso. injection E2 as <- _. apply N. rewrite E1. apply in_or_app. right. now left.
  - exists l, r. exact E2.
Qed.
Lemma ip_clean n : clean n -> ~ In "$"%byte (en n ++ B " ").
Proof. intros C. rewrite in_app_iff. intros [K|K]; [now apply en_nodollar in K|revert K; not_in]. Qed.
Lemma ip_pair n a : clean n -> (substring (B "$$") (ip_text (n, a)) <-> substring (B "$$") a) /\ (substring (B "$$") (ip_text (n, a) ++ B "$") <-> substring (B "$$") (a ++ B "$")).
Proof.
  intros C. assert (K : forall y, substring (B "$$") (en n ++ B " " ++ y) <-> substring (B "$$") y).
  { intros y. rewrite app_assoc. split; [apply after_name; now apply ip_clean|]. intros (x & r & ->). exists ((en n ++ B " ") ++ x), r. apply app_assoc. }
  unfold ip_text. cbn [fst snd]. split; [apply K|]. rewrite <- !app_assoc. apply K.
Qed.
(** An entry is understood only if it was not cut too early. *)
Lemma ip_entry n a a' : clean n -> userip_entry None (en n ++ B " " ++ a') (n, a) -> length a' <= length a -> a' = a /\ n_ok n /\ ~ In " "%byte a.
Proof.
  intros C [(m & E & NS & R)|(NS & _)] L; cbn [fst snd] in *.
  - destruct (Nat.eq_dec (length a') (length a)) as [K|K].
    + assert (M : length (en n) = length m) by (apply (f_equal (@length byte)) in E; rewrite !app_length in E; cbn in E; lia).
      apply len_app_inj in E as [<- E]; [|exact M]. injection E as ->. split; [reflexivity|]. split; [apply n_ok_iff; auto|exact NS].
    + exfalso. assert (M : length m < length (en n)) by (apply (f_equal (@length byte)) in E; rewrite !app_length in E; cbn in E; lia).
      apply app_eq_app in E as (l & [[E1 E2]|[E1 E2]]); [|rewrite E1, app_length in M; lia].
      destruct l as [|c l]; [rewrite app_nil_r in E1; rewrite E1 in M; lia|]. injection E2 as <- _.
      destruct (cut_back _ en_bytes " "%byte space_sep _ _ _ E1) as (s1 & s2 & -> & -> & _).
      destruct R as (_ & _ & R). apply text_none in R as [Q _]. rewrite unescape_en in Q. pose proof (lg_len s1) as G. rewrite <- Q, app_length in G. cbn in G. lia.
  - exfalso. apply NS. rewrite !in_app_iff. right. left. now left.
Qed.
Lemma split_on_not_nil sep s l : split_on sep s l -> l <> [].
Proof. intros H. destruct H; discriminate. Qed.
Lemma entries_in l : l <> [] -> Forall (fun e => clean (fst e)) l -> forall ps, split_on (B "$$") (sep_by (B "$$") (map ip_text l)) ps -> Forall2 (userip_entry None) ps l -> entries_fit l.
Proof.
  induction l as [|[n a] l IH]; [congruence|]. intros _ FC ps Sp F. inversion FC as [|? ? C FC']; subst. cbn [fst] in C.
  destruct l as [|e2 l].
  - cbn [map sep_by] in Sp. inversion Sp as [s NS|s x b ps' F1 Sp']; subst.
    + inversion F as [|? ? ? ? En]; subst. destruct (ip_entry n a a C En (le_n _)) as (_ & N & S). split; [exact N|]. split; [exact S|]. now rewrite (proj1 (ip_pair n a C)) in NS.
    + inversion F as [|? ? ? ? En Fs]; subst. inversion Fs; subst. now apply split_on_not_nil in Sp'.
  - assert (E : sep_by (B "$$") (map ip_text ((n, a) :: e2 :: l)) = ip_text (n, a) ++ B "$$" ++ sep_by (B "$$") (map ip_text (e2 :: l))) by reflexivity.
    rewrite E in Sp. clear E. inversion Sp as [s NS|s x b ps' F1 Sp']; subst; [exfalso; apply NS; eexists _, _; reflexivity|].
    inversion F as [|? ? ? ? En Fs]; subst.
    assert (X : exists a', x = en n ++ B " " ++ a' /\ length a' <= length a).
    { destruct F1 as [E M]. pose proof (M _ _ eq_refl) as L. unfold ip_text in E at 1, L. cbn [fst snd] in E, L. rewrite <- !app_assoc in E. rewrite app_assoc in E.
      apply app_eq_app in E as (k & [[E1 E2]|[E1 E2]]).
      - destruct k as [|c k]; [rewrite app_nil_r in E1; exists []; split; [cbn; rewrite <- E1; reflexivity|cbn; lia]|].
        exfalso. injection E2 as <- _. apply (ip_clean n C). rewrite E1. apply in_or_app. right. now left.
      - exists k. split; [rewrite E1, <- app_assoc; reflexivity|]. rewrite E1, !app_length in L. cbn in L |- *. lia. }
    destruct X as (a' & -> & L). destruct (ip_entry n a a' C En L) as (-> & N & S).
    change (en n ++ B " " ++ a) with (ip_text (n, a)) in F1. destruct F1 as [E M]. do 2 apply app_inv_head in E. subst b.
    assert (R : entries_fit (e2 :: l)) by (apply (IH ltac:(discriminate) FC' ps' Sp' Fs)).
    change (n_ok n /\ ~ In " "%byte a /\ ~ substring (B "$$") (a ++ B "$") /\ entries_fit (e2 :: l)). split; [exact N|]. split; [exact S|]. split; [|exact R].
    rewrite <- (proj2 (ip_pair n a C)). intros (x & r & E).
    specialize (M x (r ++ B "$" ++ sep_by (B "$$") (map ip_text (e2 :: l)))).
    assert (Q : ip_text (n, a) ++ B "$$" ++ sep_by (B "$$") (map ip_text (e2 :: l)) = x ++ B "$$" ++ r ++ B "$" ++ sep_by (B "$$") (map ip_text (e2 :: l))).
    { replace (B "$$" ++ sep_by (B "$$") (map ip_text (e2 :: l))) with (B "$" ++ B "$" ++ sep_by (B "$$") (map ip_text (e2 :: l))) at 1 by reflexivity.
      rewrite app_assoc, E, <- !app_assoc. reflexivity. }
    apply M in Q. apply (f_equal (@length byte)) in E. rewrite !app_length in E. change (length (B "$")) with 1 in E. change (length (B "$$")) with 2 in E. lia.
Qed.
Lemma entries_out l : entries_fit l -> l <> [] /\ Forall (fun e => n_ok (fst e) /\ ~ In " "%byte (snd e)) l /\ split_on (B "$$") (sep_by (B "$$") (map ip_text l)) (map ip_text l).
Proof.
  induction l as [|[n a] l IH]; [intros []|]. destruct l as [|e2 l].
  - intros (N & S & D). split; [discriminate|]. split; [constructor; [split; assumption|constructor]|]. cbn [map sep_by]. apply so_last. rewrite (proj1 (ip_pair n a ltac:(now apply n_ok_iff in N as [C _]))). exact D.
  - intros H. change (n_ok n /\ ~ In " "%byte a /\ ~ substring (B "$$") (a ++ B "$") /\ entries_fit (e2 :: l)) in H. destruct H as (N & S & D & H). destruct (IH H) as (_ & F & Sp).
    split; [discriminate|]. split; [constructor; [split; assumption|exact F]|].
    change (map ip_text ((n, a) :: e2 :: l)) with (ip_text (n, a) :: map ip_text (e2 :: l)). eapply so_part; [|exact Sp].
    change (sep_by (B "$$") (ip_text (n, a) :: map ip_text (e2 :: l))) with (ip_text (n, a) ++ B "$$" ++ sep_by (B "$$") (map ip_text (e2 :: l))).
    apply first_cut_seq, cut_seq_app; [discriminate|]. change (removelast (B "$$")) with (B "$"). intros K. apply D. apply (proj2 (ip_pair n a ltac:(now apply n_ok_iff in N as [C _]))). exact K.
Qed.
Lemma ip_written l p : userip_write None l p -> Forall (fun e => clean (fst e)) l /\ p = concat (map (fun q => q ++ B "$$") (map ip_text l)).
Proof.
  intros (pl & F & ->). induction F as [|[n a] q l pl (pn & W & ->) _ [IH E]]; [split; constructor|]. apply name_write_none in W as (_ & C & ->). split; [now constructor|].
  cbn [concat map]. rewrite E. change (ip_text (n, a)) with (en n ++ B " " ++ a). cbn [fst snd]. rewrite <- !app_assoc. reflexivity.
Qed.
Lemma written_ip l : Forall (fun e => n_ok (fst e)) l -> userip_write None l (concat (map (fun q => q ++ B "$$") (map ip_text l))).
Proof.
  intros F. exists (map (fun q => q ++ B "$$") (map ip_text l)). split; [|reflexivity]. induction F as [|[n a] l N _ IH]; [constructor|]. constructor; [|exact IH].
  exists (en n). split; [now apply n_ok_write|]. change (ip_text (n, a)) with (en n ++ B " " ++ a). cbn [fst snd]. rewrite <- !app_assoc. reflexivity.
Qed.
Lemma userip_arrives l : arrives (MUserIP l) <-> entries_fit l.
Proof.
  split.
  - arr. match goal with H : userip_write _ _ _ |- _ => apply ip_written in H as [FC ->] end.
    match goal with H : userip_read _ _ _ |- _ => destruct H as (d1 & d2 & ps & S1 & S2 & Sp & F) end.
    apply without_suffix_iff in S1; [|discriminate]. apply without_suffix_iff in S2; [|discriminate]. destruct l as [|e l].
    + cbn in S1. subst d1. cbn in S2. subst d2. inversion F; subst. now apply split_on_not_nil in Sp.
    + rewrite sep_concat in S1 by discriminate. rewrite trim_suffix_none in S1 by (change (B "$$") with (B "$" ++ ["$"%byte]); rewrite app_assoc; apply has_suffix_last; discriminate).
      subst d1. rewrite trim_suffix_app in S2. subst d2. apply (entries_in (e :: l) ltac:(discriminate) FC ps Sp F).
  - intros H. apply entries_out in H as (N & F & Sp). exists (concat (map (fun q => q ++ B "$$") (map ip_text l))). split.
    + constructor. apply written_ip. eapply Forall_impl; [|exact F]. intros e [K _]. exact K.
    + constructor. rewrite sep_concat by (destruct l; [congruence|discriminate]). eexists _, _, _. split; [right; split; [|reflexivity]|split; [now left|split; [exact Sp|]]].
      * intros a K. change (B "$$") with (B "$" ++ ["$"%byte]) in K at 2. rewrite app_assoc in K. apply app_inj_tail in K as [_ K]. discriminate.
      * clear N Sp. induction F as [|[n a] l [Nn Na] _ IH]; [constructor|]. constructor; [|exact IH]. left. exists (en n). cbn [fst snd] in *. split; [reflexivity|]. split; [exact Na|]. now apply n_ok_iff in Nn as [_ Nn].
Qed.
