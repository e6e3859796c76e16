(** Which messages arrive unchanged: files, hub information, commands and lists of addresses. *)
From Verif Require Import Base BaseFacts Num NumFacts NumSpec Utf8 Utf8Facts SpecText SpecHash SpecNmdc SpecFrame SpecRead SpecWrite SpecSurvive Html HtmlFacts HtmlReadFacts.
From Verif Require Import Base32 Tiger TigerFacts NmdcText NmdcTextFacts NmdcChat NmdcHub NmdcFiles NmdcUser NmdcMessage NmdcChatFacts NmdcHubFacts NmdcMsgFacts NmdcFrameFacts NmdcDecodeFacts NmdcWriteFacts.
From Verif Require Import NmdcReadFacts NmdcReadChat NmdcReadCmd NmdcReadFiles NmdcReadHub NmdcReadMsg NmdcSurviveFacts NmdcSurviveChat.

Notation es := (flat_map entity_string).
Notation en := (flat_map entity_name).
Notation lg := legacy_unescape.
Lemma in_es_space s : In " "%byte (es s) <-> In " "%byte s.
Proof. apply in_es. not_in. Qed.
Lemma dec_no_space n : ~ In " "%byte (dec_text n).
Proof. apply dec_nodigit. now left. Qed.
Lemma int_no_space n : ~ In " "%byte (int_text n).
Proof. apply int_nodigit. now left. Qed.
Lemma first_plain c s r a b : ~ In c s -> first [c] (s ++ c :: r) a b -> a = s /\ b = r.
Proof. intros N H. exact (first_unique _ _ _ _ _ _ H (first1 c s r N)). Qed.

(** ** Files *)
Lemma adcget_arrives m : arrives (MAdcGet m) <-> fits (MAdcGet m).
Proof.
  destruct m as [t i s l z db]. cbn [fits ag_type ag_ident ag_start ag_length ag_downloaded]. split.
  - arr. match goal with H : adcget_write _ _ _ |- _ => inversion H; subst; clear H end. txt.
    match goal with H : adcget_read _ _ _ |- _ => inversion H as [d t' r1 i' r2 s' r3 ty id st len fs l' z' db' F1 F2 F3 R1 R2 R3 Sp L Fl]; subst; clear H end.
    destruct (first_str " " [] t _ _ _ space_sep F1 R1) as (-> & -> & T1).
    destruct (first_str " " [] i _ _ _ space_sep F2 R2) as (-> & -> & T2).
    apply first_plain in F3 as [-> ->]; [|apply dec_no_space]. apply uint_dec in R3 as [_ U].
    apply first1_in in F1, F2. rewrite in_es_space in F1, F2.
    split; [exact T1|]. split; [exact T2|]. split; [exact F1|]. split; [exact F2|]. split; [exact U|].
    assert (Q : l' = int_text l /\ match db with Some n => In (B "DB" ++ dec_text n) fs | None => True end).
    { apply split_on_byte in Sp. destruct z, db as [n|].
      - change (int_text l ++ B " ZL1" ++ B " DB" ++ dec_text n) with (int_text l ++ " "%byte :: B "ZL1" ++ " "%byte :: B "DB" ++ dec_text n) in Sp.
        rewrite split_byte_app in Sp by apply int_no_space. rewrite (split_byte_app _ (B "ZL1")) in Sp by not_in. rewrite split_byte_notin in Sp by (rewrite in_app_iff; intros [K|K]; [revert K; not_in|now apply dec_no_space in K]).
        injection Sp as -> ->. split; [reflexivity|]. right. now left.
      - change (int_text l ++ B " ZL1" ++ []) with (int_text l ++ " "%byte :: B "ZL1") in Sp. rewrite split_byte_app in Sp by apply int_no_space. injection Sp as -> _. auto.
      - change (int_text l ++ [] ++ B " DB" ++ dec_text n) with (int_text l ++ " "%byte :: B "DB" ++ dec_text n) in Sp.
        rewrite split_byte_app in Sp by apply int_no_space. rewrite split_byte_notin in Sp by (rewrite in_app_iff; intros [K|K]; [revert K; not_in|now apply dec_no_space in K]).
        injection Sp as -> ->. split; [reflexivity|]. now left.
      - cbn [app] in Sp. rewrite app_nil_r, split_byte_notin in Sp by apply int_no_space. injection Sp as -> _. auto. }
    destruct Q as [-> Q]. split.
    + destruct L as [[_ ->]|(n & R & E)]; [lia|]. apply uint_int in R as (P & -> & U64). unfold wrapped64 in E. unfold u64 in U64.
      destruct (N.ltb_spec (Z.to_N l) (2 ^ 63)) as [K|K]; lia.
    + destruct db as [n|]; [|exact I]. destruct Fl as (_ & Fl & _). apply Fl in Q as [k Q]. now apply uint_dec in Q as [_ Q].
  - intros (T1 & T2 & S1 & S2 & U & L & D). eapply arrives_wire; [exact I|exact I|]. constructor. apply agw with (wt := t) (wi := i); try assumption; try now apply t_ok_text. lia.
Qed.
Lemma adcsnd_arrives m : arrives (MAdcSnd m) <-> fits (MAdcSnd m).
Proof.
  destruct m as [t i s l z]. cbn [fits as_type as_ident as_start as_length]. split.
  - arr. match goal with H : adcsnd_write _ _ _ |- _ => inversion H; subst; clear H end. txt.
    match goal with H : adcsnd_read _ _ _ |- _ => inversion H as [d t' r1 i' r2 s' r3 ty id st len l' z' F1 F2 F3 R1 R2 R3 NS RL Fl]; subst; clear H end.
    destruct (first_str " " [] t _ _ _ space_sep F1 R1) as (-> & -> & T1).
    destruct (first_str " " [] i _ _ _ space_sep F2 R2) as (-> & -> & T2).
    apply first_plain in F3 as [-> ->]; [|apply dec_no_space]. apply uint_dec in R3 as [_ U].
    apply first1_in in F1, F2. rewrite in_es_space in F1, F2.
    split; [exact T1|]. split; [exact T2|]. split; [exact F1|]. split; [exact F2|]. split; [exact U|].
    destruct RL as (d & P & D & UL). exact UL.
  - intros (T1 & T2 & S1 & S2 & U & L). eapply arrives_wire; [exact I|exact I|]. constructor. apply asw with (wt := t) (wi := i); try assumption; now apply t_ok_text.
Qed.
Lemma direction_arrives m : arrives (MDirection m) <-> fits (MDirection m).
Proof.
  destruct m as [up n]. cbn [fits di_number]. split.
  - arr. match goal with H : direction_read _ _ |- _ => inversion H; subst; clear H end. assumption.
  - intros H. eapply arrives_wire; [exact I|exact I|]. constructor. constructor. exact H.
Qed.

(** ** Hub *)
Lemma failover_arrives l : arrives (MFailOver l) <-> fits (MFailOver l).
Proof.
  cbn [fits]. split.
  - arr. match goal with H : failover_read _ _ |- _ => apply split_on_byte in H; rename H into E end. split.
    + rewrite E. apply split_byte_not_nil.
    + rewrite E. apply Forall_forall. apply split_byte_pieces.
  - intros [N F]. eapply arrives_wire; [exact I|exact I|]. constructor. now constructor.
Qed.
Lemma filled_in l x : In x (filled l) -> In x l /\ x <> [].
Proof. unfold filled. rewrite filter_In. intros [H K]. split; [exact H|]. intros ->. discriminate. Qed.
Lemma supports_arrives l : arrives (MSupports l) <-> fits (MSupports l).
Proof.
  cbn [fits]. split.
  - arr. match goal with H : supports_read _ _ |- _ => destruct H as (ps & Sp & E) end. apply split_on_byte in Sp. apply Forall_forall. intros x Hx. rewrite E in Hx. apply filled_in in Hx as [Hx N]. split; [exact N|].
    rewrite Sp in Hx. now apply split_byte_pieces in Hx.
  - intros F. eapply arrives_wire; [exact I|exact I|]. constructor. now constructor.
Qed.
Lemma lock_arrives m : arrives (MLock m) <-> fits (MLock m).
Proof.
  destruct m as [noext l pk ref]. cbn [fits lk_lock lk_pk lk_noext]. split.
  - arr. match goal with H : lock_write _ _ |- _ => unfold lock_write in H; cbn [lk_noext lk_lock lk_pk lk_ref] in H; rename H into E end.
    match goal with H : lock_read _ _ |- _ => inversion H as [ne d b l' pk' ref' P Q]; subst; clear H end.
    split; [|split].
    + destruct Q as [(N & -> & _)|(r & r' & F & _)]; [exact N|]. now apply first1_in in F.
    + destruct Q as [(_ & _ & -> & _)|(r & r' & _ & _ & [F|(N & -> & _)])]; [intros (a & x & K); destruct a; discriminate| |exact N].
      intros (a & x & ->). destruct F as [-> M]. specialize (M a (x ++ B "Ref=" ++ ref)). rewrite <- !app_assoc in M. specialize (M eq_refl). rewrite !app_length in M. cbn in M. lia.
    + intros -> [r ->]. destruct P as [[P _]|(_ & P & _)]; [discriminate|]. apply P. eexists. cbn [app]. rewrite <- app_assoc. reflexivity.
  - intros (N & P & X). eapply arrives_wire; [exact I|exact I|]. constructor. now constructor.
Qed.
Lemma splitn_next n x R : exists y r, splitn_byte (S (S n)) "$" (x ++ B "$" ++ R) = y :: r /\ (y = x /\ ~ In "$"%byte x /\ r = splitn_byte (S n) "$" R \/ length y < length x).
Proof.
  destruct (in_dec byte_eq_dec "$"%byte x) as [D|D].
  - destruct (cut "$" x) as [[a b]|] eqn:C; [|now apply cut_none in C]. apply cut_spec in C as [-> C].
    rewrite <- app_assoc. cbn [app]. rewrite splitn_byte_cut by exact C. eexists _, _. split; [reflexivity|]. right. rewrite app_length. cbn. lia.
  - change (B "$" ++ R) with ("$"%byte :: R). rewrite splitn_byte_cut by exact D. eauto 10.
Qed.
Lemma splitn_fixed n x R : ~ In "$"%byte x -> splitn_byte (S (S n)) "$" (x ++ B "$" ++ R) = x :: splitn_byte (S n) "$" R.
Proof. intros D. now apply splitn_byte_cut. Qed.
Lemma es_nodollar s : ~ In "$"%byte (es s).
Proof. rewrite es_eq. apply esc_string_no_dollar. Qed.
Lemma int_nodollar z : ~ In "$"%byte (int_text z).
Proof. apply int_nodigit. now left. Qed.
Lemma software_kept soft vers y : software y (soft, vers) -> length y < length (match vers with [] => soft | _ => soft ++ B " " ++ vers end) -> False.
Proof.
  intros [[-> _]|[_ E]] L; cbn [fst snd] in *.
  - destruct vers; rewrite !app_length in L; cbn in L; lia.
  - injection E as -> ->. lia.
Qed.
Lemma hubinfo_arrives m : arrives (MHubInfo m) <-> fits (MHubInfo m).
Proof.
  destruct m as [n host d i1 i2 i3 i4 soft vers o s e]. cbn [fits hi_name hi_host hi_desc hi_i1 hi_i2 hi_i3 hi_i4 hi_soft hi_vers hi_owner hi_state hi_encoding]. split.
  - arr. match goal with H : hubinfo_write _ _ _ |- _ => inversion H; subst; clear H end. txt. cbn [sep_by] in *.
    match goal with H : hubinfo_read _ _ _ |- _ => inversion H as [dd fs a0 a1 a2 a3 a4 a5 a6 a7 a8 a9 a10 a11 Sp F0 F1 F2 F3 F4 F5 F6 F7 F8 F9 F10]; subst; clear H end.
    apply split_max_iff in Sp. rewrite splitn_fixed in Sp by apply es_nodollar.
    match type of Sp with context [host ++ B "$" ++ ?R] => destruct (splitn_next 10 host R) as (y1 & r1 & E1 & O1) end. rewrite E1 in Sp. clear E1.
    assert (Q1 : y1 = host) by (subst fs; exact F1). destruct O1 as [(_ & NH & ->)|L]; [|subst; lia]. subst y1.
    rewrite splitn_fixed in Sp by apply es_nodollar. rewrite !splitn_fixed in Sp by apply int_nodollar.
    match type of Sp with context [?X ++ B "$" ++ es o ++ ?R] => destruct (splitn_next 4 X (es o ++ R)) as (y7 & r7 & E7 & O7) end. rewrite E7 in Sp. clear E7.
    assert (Q7 : software y7 (soft, vers)) by (subst fs; exact F7).
    destruct O7 as [(E7 & NX & ->)|L]; [|exfalso; eapply software_kept; eassumption].
    rewrite !splitn_fixed in Sp by apply es_nodollar.
    assert (NE : ~ In "$"%byte e).
    { destruct (in_dec byte_eq_dec "$"%byte e) as [D|D]; [|exact D]. exfalso. assert (L : e = []).
      { assert (Z : exists z1 z2 zs, splitn_byte 3 "$" e = z1 :: z2 :: zs).
        { destruct (cut "$" e) as [[a r]|] eqn:C; [|now apply cut_none in C]. apply cut_spec in C as [-> NA]. rewrite (splitn_byte_cut 1) by exact NA.
          destruct (splitn_byte 2 "$" r) as [|z zs] eqn:Z; [cbn [splitn_byte] in Z; destruct (cut "$" r) as [[? ?]|]; discriminate|]. eauto. }
        destruct Z as (z1 & z2 & zs & Z). rewrite Z in Sp. subst fs. exact F10. }
      subst e. destruct D. }
    subst fs. cbn [field nth_error] in F0, F2, F3, F4, F5, F6, F8, F9.
    apply t_ok_iff in F0, F2, F8, F9. apply int_int in F3 as [_ F3], F4 as [_ F4], F5 as [_ F5], F6 as [_ F6].
    do 8 (split; [assumption|]). split; [exact NH|].
    assert (S : ~ In "$"%byte soft /\ ~ In "$"%byte vers).
    { destruct vers; [split; [exact NX|intros []]|]. rewrite !in_app_iff in NX. tauto. }
    split; [apply S|]. split; [apply S|]. split; [exact NE|]. subst y7. destruct Q7 as [[E K]|[K E]]; cbn [fst snd] in *.
    + split; [exact K|]. intros ->. exfalso. apply (f_equal (@length byte)) in E. rewrite !app_length in E. cbn in E. lia.
    + injection E as -> ->. split; [intros []|]. auto.
  - intros (T0 & T2 & T8 & T9 & J1 & J2 & J3 & J4 & D1 & D2 & D3 & D4 & S1 & S2). eapply arrives_wire; [exact I|exact I|]. constructor.
    apply hiw with (wn := n) (wd := d) (wo := o) (ws := s); try assumption; now apply t_ok_text.
Qed.
Lemma sa_arrives m : sized (MSA m) -> arrives (MSA m) <-> fits (MSA m).
Proof.
  destruct m as [h a]. cbn [sized fits sa_tth]. intros Z. split; [intros _; exact Z|]. intros _. eapply arrives_wire; [exact Z|exact I|]. constructor. constructor. now apply hash_spelled_iff.
Qed.
Lemma sp_arrives m : sized (MSP m) -> arrives (MSP m) <-> fits (MSP m).
Proof.
  destruct m as [h u]. cbn [sized fits sp_tth sp_user]. intros Z. split.
  - arr. match goal with H : sp_write _ _ _ |- _ => inversion H as [h' t' u' pu Hs Hn]; subst; clear H end. txt.
    match goal with H : sp_read _ _ _ |- _ => inversion H as [t2 h2 n2 u2 L2 R2 N2]; subst; clear H end.
    split; [exact Z|]. destruct Hs as (_ & L & _). match goal with H : _ = _ |- _ => apply len_app_inj in H as [_ H]; [injection H as ->|congruence] end. apply n_ok_iff. auto.
  - intros [_ N]. eapply arrives_wire; [exact Z|exact I|]. constructor. econstructor; [now apply hash_spelled_iff|now apply n_ok_text].
Qed.
