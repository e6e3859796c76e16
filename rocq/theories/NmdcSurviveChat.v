(** Which messages arrive unchanged: simple messages, chat, connections and the hub. *)
From Verif Require Import Base BaseFacts Num NumFacts NumSpec Utf8 Utf8Facts SpecText SpecHash SpecNmdc SpecFrame SpecRead SpecWrite SpecSurvive Html HtmlFacts HtmlReadFacts.
From Verif Require Import Base32 Tiger TigerFacts NmdcText NmdcTextFacts NmdcChat NmdcHub NmdcFiles NmdcUser NmdcMessage NmdcChatFacts NmdcHubFacts NmdcMsgFacts NmdcFrameFacts NmdcDecodeFacts NmdcWriteFacts.
From Verif Require Import NmdcReadFacts NmdcReadChat NmdcReadCmd NmdcReadFiles NmdcReadHub NmdcReadMsg NmdcSurviveFacts.

Notation es := (flat_map entity_string).
Notation en := (flat_map entity_name).
Notation lg := legacy_unescape.
(** The payload written for [m] is read as [m]. *)
Definition arrives (m : msg) : Prop := exists p, writes None m p /\ SpecRead.reads None p m.
Lemma arrives_wire m p : sized m -> raw_name m -> wire None None m p -> arrives m.
Proof.
  intros Z R W. exists p. split; [apply writes_iff; [exact Z|exact (wire_encodes None None m p W)]|].
  pose proof (wire_fresh None None m p W R) as D. now apply decoded_reads in D as [_ D].
Qed.
Lemma n_ok_text s : n_ok s <-> name_text None None s s.
Proof.
  unfold n_ok, name_text, transcodes. cbn [encodes_to]. pose proof (wire_len_le s). split.
  - intros (U & W & C & L). repeat (split; [try tauto; lia|]). exact L.
  - tauto.
Qed.
Lemma t_ok_text s : t_ok s <-> string_text None None s s.
Proof. unfold t_ok, string_text, transcodes. cbn [encodes_to]. tauto. Qed.
Lemma space_sep : ~ ent_byte " ". Proof. unfold ent_byte. not_in. Qed.

(** Both sides of the transfer. *)
Ltac arr := let p := fresh "p" in let W := fresh "W" in let R := fresh "R" in intros (p & W & R); inversion W; subst; clear W; inversion R; subst; clear R.
Ltac txt := repeat match goal with
  | H : name_write None _ _ |- _ => apply name_write_none in H as (? & ? & ?)
  | H : str_write None _ _ |- _ => apply str_write_none in H as (? & ?)
  end; subst.

(** ** Simple messages *)
Lemma name_arrives k s : arrives (MName k s) <-> n_ok s.
Proof.
  split.
  - arr. txt. apply n_ok_iff. auto.
  - intros H. apply (arrives_wire _ (en s)); [exact I|exact I|]. constructor. now apply n_ok_text.
Qed.
Lemma string_arrives k s : arrives (MString k s) <-> t_ok s.
Proof.
  split.
  - arr. txt. now apply t_ok_iff.
  - intros H. apply (arrives_wire _ (es s)); [exact I|exact I|]. constructor. now apply t_ok_text.
Qed.
Lemma err_arrives k e : arrives (MErr k e) <-> match e with None => True | Some t => t <> [] /\ t_ok t end.
Proof.
  split.
  - destruct e as [t|]; [|intros _; exact I]. arr. txt.
    match goal with H : err_read _ _ _ |- _ => destruct H as [[_ E]|(s & N & S & E)]; [discriminate|] end. injection E as ->. split; [exact N|]. now apply t_ok_iff.
  - destruct e as [t|]; intros H.
    + apply (arrives_wire _ (es t)); [exact I|exact I|]. constructor. destruct H as [N H]. constructor; [exact N|now apply t_ok_text].
    + apply (arrives_wire _ []); [exact I|exact I|]. constructor. constructor. reflexivity.
Qed.
Lemma raw_arrives t d : arrives (MRaw t d) <-> ~ In t known.
Proof.
  split; [now arr|]. intros H. exists d. split; constructor. exact H.
Qed.
Lemma text_arrives k d : arrives (MText k d).
Proof. exists d. split; constructor. Qed.
Lemma noargs_arrives k : arrives (MNoArgs k).
Proof. exists []. split; constructor. Qed.
Lemma sep_concat l : l <> [] -> concat (map (fun p => p ++ B "$$") l) = sep_by (B "$$") l ++ B "$$".
Proof.
  induction l as [|x l IH]; [congruence|]. intros _. destruct l as [|y l]; [cbn [map concat sep_by]; now rewrite app_nil_r|].
  cbn [map concat] in IH |- *. rewrite IH by discriminate. cbn [sep_by]. rewrite <- !app_assoc. reflexivity.
Qed.
Lemma en_nodollar s : clean s -> ~ In "$"%byte (en s).
Proof. intros C. rewrite in_en by not_in. apply C. Qed.
Lemma names_ok l : Forall clean l -> Forall2 (name_read None) (map en l) l -> Forall n_ok l.
Proof. intros C. induction C as [|s l C _ IH]; intros F; inversion F; subst; constructor; [apply n_ok_iff; auto|auto]. Qed.
Lemma write_clean l pl : Forall2 (name_write None) l pl -> Forall clean l /\ pl = map en l.
Proof. induction 1 as [|s p l pl H _ [IH ->]]; [split; constructor|]. apply name_write_none in H as (_ & C & ->). split; [now constructor|reflexivity]. Qed.
Lemma names_arrives k l : arrives (MNames k l) <-> Forall n_ok l /\ l <> [[]].
Proof.
  split.
  - arr. match goal with H : names_read _ _ _ |- _ => destruct H as (d & Hd & Hr) end. match goal with H : names_write _ _ _ |- _ => inversion H as [E1 E2|l' pl N F E1 E2]; subst; [split; [constructor|discriminate]|] end.
    apply write_clean in F as [C ->].
    rewrite sep_concat in Hd by (destruct l; [congruence|discriminate]). apply without_suffix_iff in Hd; [|discriminate]. rewrite trim_suffix_app in Hd. subst d.
    destruct Hr as [[_ ->]|(ND & ps & Sp & F)]; [congruence|].
    apply split_on_seq in Sp; [|discriminate]. rewrite sep_by_join in Sp. rewrite split_seq_join in Sp.
    + subst ps. split; [now apply names_ok|]. intros ->. now apply ND.
    + discriminate.
    + destruct l; [congruence|discriminate].
    + intros x Hx. apply in_map_iff in Hx as (y & <- & Hy). refine (proj1 (no_double _ _)). apply en_nodollar. rewrite Forall_forall in C. auto.
    + intros x Hx. apply in_map_iff in Hx as (y & <- & Hy). refine (proj2 (no_double _ _)). apply en_nodollar. rewrite Forall_forall in C. auto.
  - intros [F N]. destruct l as [|x l]; [exists (B "$$"); split; [constructor; constructor|]|].
    + constructor. exists []. split; [left; reflexivity|]. now left.
    + eapply arrives_wire; [exact I|exact I|]. constructor. apply nmw_some with (ws := x :: l); [discriminate| |exact N].
      clear N. induction F; constructor; [now apply n_ok_text|assumption].
Qed.

(** ** Chat *)
Lemma parts_unique d n t n' t' : chat_parts d n t -> chat_parts d n' t' -> n = n' /\ t = t'.
Proof. intros H H'. apply name_end_iff in H as (i & o & E & -> & ->). apply name_end_iff in H' as (i' & o' & E' & -> & ->). rewrite E in E'. injection E' as -> ->. auto. Qed.
Lemma parts_suffix d n t : chat_parts d n t -> exists a, d = a ++ t.
Proof. intros H. apply name_end_iff in H as (i & o & E & -> & ->). exists (firstn (i + o) d). symmetry. apply firstn_skipn. Qed.
Lemma en_nogt s : ~ In ">"%byte (en s).
Proof.
  rewrite in_flat_map. intros (x & Hx & K). destruct (byte_eq_dec x "$") as [->|D]; [destruct K as [K|[]]; discriminate|]. rewrite <- entity_name_eq in K by exact D.
  destruct (esc_char_name_cases x) as [(E & H)|[(-> & E)|[(-> & E)|[(-> & E)|[(-> & E)|(-> & E)]]]]]; rewrite E in K; cbn in K; try (intuition discriminate); try (intuition congruence).
Qed.
Lemma en_line s : clean s -> one_line (en s).
Proof. intros C. split; rewrite in_en by not_in; apply C. Qed.
Lemma gt_split (a n x y : bytes) : ~ In ">"%byte n -> n ++ x = a ++ B ">" ++ y -> length n <= length a.
Proof.
  intros N E. destruct (Nat.le_gt_cases (length n) (length a)) as [L|L]; [exact L|]. exfalso. apply N.
  apply app_eq_app in E as (l & [[-> E]|[-> E]]).
  - destruct l as [|c l]; [rewrite app_nil_r in L; lia|]. injection E as <- _. apply in_or_app. right. now left.
  - rewrite app_length in L. lia.
Qed.
Lemma parts_named n t : clean n -> chat_parts (en n ++ B "> " ++ t) (en n) t.
Proof.
  intros C. change (en n ++ B "> " ++ t) with (en n ++ B ">" ++ utf8_of 32 ++ t). apply cs_space.
  - unfold white. cbn. tauto.
  - now apply en_line.
  - intros a (w & b & _ & E). exact (gt_split a (en n) _ _ (en_nogt n) E).
Qed.
(** What follows inside an escaped text starts inside an entity or with a whole one. *)
Lemma es_suffix s : forall a t, es s = a ++ t -> exists e s', t = e ++ es s' /\ length s' <= length s /\
  (e = [] \/ exists c r, e = c :: r /\ c <> "&"%byte /\ c <> "<"%byte /\ c <> "/"%byte) /\ (a <> [] -> e = [] -> length s' < length s).
Proof.
  induction s as [|x s IH]; intros a t E.
  - destruct a; [|discriminate]. destruct t; [|discriminate]. exists [], []. split; [reflexivity|]. split; [reflexivity|]. split; [auto|congruence].
  - destruct a as [|y a]; [exists [], (x :: s); split; [exact (eq_sym E)|]; split; [reflexivity|]; split; [auto|congruence]|].
    cbn [flat_map] in E. apply app_eq_app in E as (l & [[E1 E2]|[E1 E2]]).
    + destruct l as [|c l].
      * exists [], s. cbn in E2. subst t. split; [reflexivity|]. cbn [length]. split; [lia|]. split; [auto|lia].
      * exists (c :: l), s. split; [exact E2|]. cbn [length]. split; [lia|]. split; [|discriminate]. right. exists c, l. split; [reflexivity|].
        assert (K : In c (skipn 1 (entity_string x))) by (rewrite E1; cbn; apply in_or_app; right; now left).
        revert K. clear. rewrite <- entity_string_eq. destruct (esc_char_string_cases x) as [(E & H)|[(-> & E)|[(-> & E)|(-> & E)]]]; rewrite E; cbn; intuition (subst; discriminate).
    + destruct (IH l t E2) as (e & s' & -> & L & He & _). exists e, s'. cbn [length]. split; [reflexivity|]. split; [lia|]. split; [exact He|lia].
Qed.
Lemma lt_plain : entity_string "<" = B "<". Proof. reflexivity. Qed.
Lemma es_starts s : starts_with (B "<") (es s) <-> starts_with (B "<") s.
Proof.
  split; intros [r E].
  - destruct (cut_back _ es_bytes "<"%byte ltac:(unfold ent_byte; not_in) s [] r E) as (s1 & s2 & -> & E1 & _).
    destruct s1 as [|c s1]; [now exists s2|]. exfalso. cbn in E1. symmetry in E1. apply app_eq_nil in E1 as [E1 _]. exact (es_not_nil _ E1).
  - subst s. exists (es r). rewrite es_app. reflexivity.
Qed.
Lemma unescape_head c t : c <> "&"%byte -> c <> "/"%byte -> exists r, unescape_bytes (c :: t) = c :: r.
Proof.
  intros A S. rewrite unescape_two, legacy_unescape_byte, html_unescape_other by
    (try exact A; intros p Hp [r E]; destruct (slash_first p Hp) as [q ->]; injection E as E _; congruence). eauto.
Qed.
Lemma chat_arrives m : arrives (MChat m) <-> t_ok (ch_text m) /\ (ch_name m <> [] /\ n_ok (ch_name m) \/ ch_name m = [] /\ ~ starts_with (B "<") (ch_text m)).
Proof.
  destruct m as [n t]. cbn [ch_text ch_name]. split.
  - arr. match goal with H : chat_write _ _ _ |- _ => inversion H; subst; clear H end; txt.
    + match goal with H : chat_read _ _ _ |- _ => inversion H as [d u N R|d n' t' u v P Rn Rt]; subst; clear H end.
      * rewrite es_starts in N. split; [now apply t_ok_iff|auto].
      * exfalso. match goal with H : _ = es t |- _ => rename H into E end.
        assert (S : starts_with (B "<") t) by (apply es_starts; exists d; now symmetry). destruct S as [t2 ->].
        rewrite es_app in E. injection E as ->. destruct (parts_suffix _ _ _ P) as [a Ea].
        apply es_suffix in Ea as (e & s' & -> & L & He & _). destruct Rt as [_ Rt]. apply text_none in Rt as [Rt _].
        destruct He as [->|(c & r & -> & A & B1 & C)].
        -- cbn [app] in Rt. rewrite unescape_es in Rt. pose proof (lg_len s') as K. rewrite <- Rt in K. cbn in K. lia.
        -- destruct (unescape_head c (r ++ es s') A C) as [q Q]. rewrite <- app_comm_cons in Rt. rewrite Q in Rt. injection Rt as K _. now apply B1.
    + match goal with H : chat_read _ _ _ |- _ => inversion H as [d u N R|d n' t' u v P Rn Rt]; subst; clear H end; [exfalso; congruence|].
      match goal with H : clean n |- _ => destruct (parts_unique _ _ _ _ _ P (parts_named n (es t) H)) as [-> ->] end.
      split; [now apply t_ok_iff|]. left. split; [assumption|]. apply n_ok_iff. auto.
  - intros [T [[N H]|[-> H]]].
    + eapply arrives_wire; [exact I|exact I|]. constructor. constructor; [exact N|now apply n_ok_text|now apply t_ok_text].
    + eapply arrives_wire; [exact I|exact I|]. constructor. apply cw_plain; [now apply t_ok_text|exact H].
Qed.

(** ** Messages to one user *)
Lemma from_pat : plain_pat (B " From: ").
Proof. split; [right; left; reflexivity|]. intros c Hc. repeat (destruct Hc as [<-|Hc]; [not_in|]); destruct Hc. Qed.
Lemma from_en s : clean s -> (occurs (B " From: ") (en s ++ B " From:") <-> occurs (B " From: ") (s ++ B " From:")).
Proof.
  intros C. replace (en s ++ B " From:") with (en (s ++ B " From:")) by (rewrite en_app; reflexivity).
  rewrite en_eq by (rewrite in_app_iff; intros [K|K]; [now apply C in K|revert K; not_in]). apply occurs_esc_name, from_pat.
Qed.
Lemma first_from s r : clean s -> ~ substring (B " From: ") (s ++ B " From:") -> first (B " From: ") (en s ++ B " From: " ++ r) (en s) r.
Proof. intros C N. apply first_cut_seq, cut_seq_app; [discriminate|]. change (removelast (B " From: ")) with (B " From:"). now rewrite from_en. Qed.
Lemma from_first s r : clean s -> first (B " From: ") (en s ++ B " From: " ++ r) (en s) r -> ~ substring (B " From: ") (s ++ B " From:").
Proof.
  intros C [_ M] (x & y & E). assert (L := f_equal (@length byte) E). rewrite !app_length in L. cbn [B length] in L.
  apply app_eq_app in E as (l & [[E1 E2]|[E1 E2]]); [|assert (K := f_equal (@length byte) E1); rewrite app_length in K; cbn in K; assert (K2 := f_equal (@length byte) E2); rewrite !app_length in K2; cbn in K2; lia].
  assert (Q : en s ++ B " From:" = en x ++ B " From: " ++ en y).
  { replace (en s ++ B " From:") with (en (s ++ B " From:")) by (rewrite en_app; reflexivity). rewrite E1, <- app_assoc, <- E2. rewrite !en_app. reflexivity. }
  specialize (M (en x) (en y ++ B " " ++ r)).
  assert (Q2 : en s ++ B " From: " ++ r = en x ++ B " From: " ++ en y ++ B " " ++ r).
  { replace (B " From: " ++ r) with (B " From:" ++ B " " ++ r) by reflexivity. rewrite app_assoc, Q, <- !app_assoc. reflexivity. }
  apply M in Q2. rewrite E1, en_app, app_length in Q2. destruct l as [|c l].
  - discriminate E2.
  - cbn [flat_map] in Q2. rewrite app_length in Q2. destruct (entity_name c) eqn:K; [exact (en_not_nil c K)|]. cbn in Q2. lia.
Qed.
Lemma en_no_dollar_first s r : clean s -> first (B " $<") (en s ++ B " $<" ++ r) (en s) r.
Proof.
  intros C. apply first_cut_seq. change (en s ++ B " $<" ++ r) with (en s ++ B " " ++ "$"%byte :: B "<" ++ r). change (B " $<") with (B " " ++ "$"%byte :: B "<").
  apply cut_seq_mark; [now apply en_nodollar|not_in].
Qed.
Lemma en_no_gt_first s r : first (B "> ") (en s ++ B "> " ++ r) (en s) r.
Proof.
  apply first_cut_seq. change (en s ++ B "> " ++ r) with (en s ++ [] ++ ">"%byte :: B " " ++ r). change (B "> ") with ([] ++ ">"%byte :: B " ").
  apply cut_seq_mark; [apply en_nogt|intros []].
Qed.
Lemma pm_arrives m : arrives (MPm m) <-> n_ok (pm_to m) /\ n_ok (pm_from m) /\ n_ok (pm_name m) /\ t_ok (pm_text m) /\ ~ substring (B " From: ") (pm_to m ++ B " From:").
Proof.
  destruct m as [t f n x]. cbn [pm_to pm_from pm_name pm_text]. split.
  - arr. match goal with H : pm_write _ _ _ |- _ => inversion H; subst; clear H end. txt.
    match goal with H : pm_read _ _ _ |- _ => inversion H as [d t' r1 f' r2 n' x' a1 a2 a3 a4 F1 F2 F3 R1 R2 R3 R4]; subst; clear H end.
    destruct (first_name " " (B "From: ") t _ _ _ space_sep ltac:(assumption) F1 R1) as (-> & -> & N1).
    destruct (first_name " " (B "$<") f _ _ _ space_sep ltac:(assumption) F2 R2) as (-> & -> & N2).
    destruct (first_name ">" (B " ") n _ _ _ ltac:(unfold ent_byte; not_in) ltac:(assumption) F3 R3) as (-> & -> & N3).
    split; [exact N1|]. split; [exact N2|]. split; [exact N3|]. split; [now apply t_ok_iff|]. eapply from_first; [assumption|exact F1].
  - intros (N1 & N2 & N3 & T & F). exists (en t ++ B " From: " ++ en f ++ B " $<" ++ en n ++ B "> " ++ es x). split.
    + constructor. constructor; [now apply n_ok_write..|now apply t_ok_write].
    + constructor. apply n_ok_iff in N1 as [C1 N1]. apply n_ok_iff in N2 as [C2 N2]. apply n_ok_iff in N3 as [C3 N3]. apply t_ok_iff in T.
      econstructor; [apply first_from; [exact C1|exact F]|apply en_no_dollar_first; exact C2|apply en_no_gt_first|assumption..].
Qed.
Lemma mcto_arrives m : arrives (MMCTo m) <-> n_ok (mt_to m) /\ n_ok (mt_from m) /\ t_ok (mt_text m) /\ ~ In " "%byte (mt_from m).
Proof.
  destruct m as [t f x]. cbn [mt_to mt_from mt_text]. split.
  - arr. match goal with H : mcto_write _ _ _ |- _ => inversion H; subst; clear H end. txt.
    match goal with H : mcto_read _ _ _ |- _ => inversion H as [d t' r1 f' x' a1 a2 a3 F1 F2 R1 R2 R3]; subst; clear H end.
    destruct (first_name " " (B "$") t _ _ _ space_sep ltac:(assumption) F1 R1) as (-> & -> & N1).
    destruct (first_name " " [] f _ _ _ space_sep ltac:(assumption) F2 R2) as (-> & -> & N2).
    split; [exact N1|]. split; [exact N2|]. split; [now apply t_ok_iff|]. apply first1_in in F2. rewrite in_en in F2 by not_in. exact F2.
  - intros (N1 & N2 & T & S). eapply arrives_wire; [exact I|exact I|]. constructor. constructor; [now apply n_ok_text..|now apply t_ok_text|exact S].
Qed.

(** ** Connections *)
Lemma rctm_arrives m : arrives (MRevCtm m) <-> n_ok (rc_from m) /\ n_ok (rc_to m) /\ ~ In " "%byte (rc_from m).
Proof.
  destruct m as [f t]. cbn [rc_from rc_to]. split.
  - arr. match goal with H : rctm_write _ _ _ |- _ => inversion H; subst; clear H end. txt.
    match goal with H : rctm_read _ _ _ |- _ => inversion H as [d f' t' a1 a2 F1 R1 R2]; subst; clear H end.
    destruct (first_name " " [] f _ _ _ space_sep ltac:(assumption) F1 R1) as (-> & -> & N1).
    split; [exact N1|]. split; [apply n_ok_iff; auto|]. apply first1_in in F1. rewrite in_en in F1 by not_in. exact F1.
  - intros (N1 & N2 & S). eapply arrives_wire; [exact I|exact I|]. constructor. constructor; [now apply n_ok_text..|exact S].
Qed.
Lemma ctm_arrives m : arrives (MCtm m) <-> ctm_fits m.
Proof.
  destruct m as [t s a k secure]. unfold ctm_fits. cbn [ct_targ ct_src ct_address ct_kind ct_secure]. split.
  - arr. match goal with H : ctm_write _ _ _ |- _ => inversion H; subst; clear H end; txt;
    match goal with H : ctm_read _ _ _ |- _ => inversion H as [d t' r addr a1 a2 a3 k' sec F1 R1 Hs E Se Ki]; subst; clear H end;
    destruct (first_name " " [] t _ _ _ space_sep ltac:(assumption) F1 R1) as (-> & -> & N1);
    (split; [assumption|]; split; [exact N1|]; split; [apply first1_in in F1; rewrite in_en in F1 by not_in; exact F1|]).
    + destruct Hs as [(s & F2 & R2)|(NS & E & _)].
      * exfalso. destruct F2 as [E _]. assert (K := f_equal (@length byte) E). rewrite !app_length in K. cbn in K. lia.
      * assert (NA : ~ In " "%byte a) by (intros K; apply NS; apply in_or_app; now left). split; [exact NA|].
        destruct Ki as [(-> & K1 & K2)|[->| ->]].
        -- left. split; [reflexivity|]. split; [reflexivity|]. split; [exact K1|]. split; [exact K2|]. intros ->. cbn in Se. rewrite app_nil_r in Se. now apply Se.
        -- exfalso. match goal with H : _ \/ _ |- _ => destruct H; discriminate end.
        -- right. right. auto.
    + destruct Hs as [(s' & F2 & R2)|(NS & E & _)].
      * assert (K : a ++ B "N" ++ (if secure then B "S" else []) ++ B " " ++ en s = (a ++ B "N" ++ (if secure then B "S" else [])) ++ [" "%byte] ++ en s) by (rewrite <- !app_assoc; reflexivity).
        rewrite K in F2. destruct (first_at _ _ _ _ _ _ F2 eq_refl ltac:(reflexivity)) as [_ <-].
        split; [|right; left; split; [reflexivity|]; split; [assumption|]; apply n_ok_iff; auto].
        intros Q. apply first1_in in F2. apply F2. apply in_or_app. now left.
      * exfalso. apply NS. rewrite !in_app_iff. right. right. right. left. now left.
  - intros (NT & N1 & S1 & S2 & [(-> & -> & E1 & E2 & E3)|[(-> & Ns & N2)|(-> & ->)]]); apply n_ok_text in N1.
    + eapply arrives_wire; [exact I|exact I|]. constructor. apply ctw_active with (wt := t); assumption.
    + eapply arrives_wire; [exact I|exact I|]. constructor. apply ctw_request with (wt := t) (ws := s); try assumption. now apply n_ok_text.
    + eapply arrives_wire; [exact I|exact I|]. constructor. apply ctw_response with (wt := t); assumption.
Qed.
