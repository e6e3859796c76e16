(** Proofs that the encoder is exactly the one of SpecWrite.v. *)
From Verif Require Import Base BaseFacts Num NumFacts SpecText SpecHash SpecNmdc SpecFrame SpecWrite Base32 Tiger TigerFacts NmdcText NmdcTextFacts NmdcChat NmdcHub NmdcFiles NmdcFilesFacts NmdcUser NmdcMessage NmdcMsgFacts NmdcFrameFacts.

Lemma ok_inj {A} (a b : A) : Ok a = Ok b -> b = a. Proof. congruence. Qed.
Section W.
Variable enc : option (bytes -> option bytes).
Local Notation sw := (str_write enc).
Local Notation nw := (name_write enc).
Lemma str_w s p : string_marshal enc s = Ok p <-> sw s p. Proof. apply string_marshal_iff. Qed.
Lemma name_w s p : name_marshal enc s = Ok p <-> nw s p. Proof. apply name_marshal_iff. Qed.
Lemma wrap_eq z : to_uint64 z = wrap64 z. Proof. reflexivity. Qed.
Lemma signed_eq n : to_int64 n = signed64 n.
Proof. unfold to_int64, signed64. rewrite N2Z.inj_mod. reflexivity. Qed.
Lemma join_sep sep l : join sep l = sep_by sep l.
Proof. induction l as [|x [|y l] IH]; [reflexivity..|]. cbn [join sep_by] in *. now rewrite <- IH. Qed.
Lemma names_w l p : names_loop enc l = Ok p <-> exists pl, Forall2 nw l pl /\ p = concat (map (fun p => p ++ B "$$") pl).
Proof.
  revert p. induction l as [|s l IH]; intros p; cbn [names_loop].
  - split; [intros [= <-]; now exists []|]. intros (pl & H & ->). inversion H; subst. reflexivity.
  - rewrite bind_ok. split.
    + intros (b & Hb & H). apply bind_ok in H as (t & Ht & [= <-]). apply name_w in Hb. apply IH in Ht as (pl & H & ->).
      exists (b :: pl). split; [now constructor|]. cbn [map concat]. now rewrite <- app_assoc.
    + intros (pl & H & ->). inversion H as [|? b ? pl' Hb Hl]; subst. exists b. split; [now apply name_w|].
      apply bind_ok. eexists. split; [apply IH; eexists; split; [exact Hl|reflexivity]|]. cbn [map concat]. now rewrite <- app_assoc.
Qed.
Lemma path_w l : forall p first, marshal_path enc first l = Ok p <-> exists pl, Forall2 sw l pl /\ p = (match l with [] => [] | _ => (if first then [] else B "\") ++ sep_by (B "\") pl end).
Proof.
  induction l as [|s l IH]; intros p first; cbn [marshal_path].
  - split; [intros [= <-]; exists []; split; [constructor|reflexivity]|]. intros (pl & H & ->). reflexivity.
  - rewrite bind_ok. split.
    + intros (b & Hb & H). apply bind_ok in H as (t & Ht & H). injection H as <-. apply str_w in Hb. apply IH in Ht as (pl & H & ->).
      exists (b :: pl). split; [now constructor|]. f_equal. destruct l; inversion H; subst; [cbn; now rewrite app_nil_r|reflexivity].
    + intros (pl & H & ->). inversion H as [|? b ? pl' Hb Hl]; subst. exists b. split; [now apply str_w|].
      apply bind_ok. eexists. split; [apply IH; eexists; split; [exact Hl|reflexivity]|]. do 2 f_equal.
      destruct l; inversion Hl; subst; [cbn; now rewrite app_nil_r|reflexivity].
Qed.
Lemma userip_w l p : userip_marshal enc l = Ok p <-> userip_write enc l p.
Proof.
  unfold userip_write. revert p. induction l as [|[n ip] l IH]; intros p; cbn [userip_marshal].
  - split; [intros [= <-]; exists []; split; [constructor|reflexivity]|]. intros (pl & H & ->). inversion H; subst. reflexivity.
  - rewrite bind_ok. split.
    + intros (b & Hb & H). apply bind_ok in H as (t & Ht & H). injection H as <-. apply name_w in Hb. apply IH in Ht as (pl & H & ->).
      exists ((b ++ B " " ++ ip ++ B "$$") :: pl). split; [constructor; [exists b; split; [exact Hb|reflexivity]|exact H]|].
      cbn [concat]. now rewrite <- !app_assoc.
    + intros (pl & H & ->). inversion H as [|? q ? pl' (b & Hb & Hq) Hl]; subst. exists b. split; [now apply name_w|].
      apply bind_ok. eexists. split; [apply IH; eexists; split; [exact Hl|reflexivity]|]. cbn [concat fst snd]. now rewrite <- !app_assoc.
Qed.
Lemma tth_w h p : length h = 24 -> (marshal_tth h = Ok p <-> exists t, hash_spelled h t /\ p = B "TTH:" ++ t).
Proof.
  intros L. rewrite (tth_marshal h (hash_base32 h)) by (apply hash_spelled_iff; auto). split.
  - intros [= <-]. exists (hash_base32 h). split; [apply hash_spelled_iff; auto|reflexivity].
  - intros (t & H & ->). apply hash_spelled_iff in H as [_ ->]. reflexivity.
Qed.
Lemma tths_w h p : length h = 24 -> (marshal_tth_space h = Ok p <-> exists t, hash_spelled h t /\ p = t ++ B " ").
Proof.
  intros L. rewrite (tth_space h (hash_base32 h)) by (apply hash_spelled_iff; auto). split.
  - intros [= <-]. exists (hash_base32 h). split; [apply hash_spelled_iff; auto|reflexivity].
  - intros (t & H & ->). apply hash_spelled_iff in H as [_ ->]. reflexivity.
Qed.

Ltac binds := repeat match goal with
  | H : bind _ _ = Ok _ |- _ => apply bind_ok in H; destruct H as (? & ? & H)
  | H : string_marshal _ _ = Ok _ |- _ => apply str_w in H
  | H : name_marshal _ _ = Ok _ |- _ => apply name_w in H
  end.
Ltac go := repeat match goal with
  | |- bind _ _ = Ok _ => apply bind_ok; eexists; split; [first [apply str_w; eassumption|apply name_w; eassumption|reflexivity]|]
  end.

Lemma chat_w m p : chat_marshal enc m = Ok p <-> chat_write enc m p.
Proof.
  destruct m as [n t]. unfold chat_marshal. cbn [ch_name ch_text]. split.
  - intros H. destruct n; binds.
    + match goal with H : Ok [] = Ok _ |- _ => injection H as <- end. injection H as <-. now constructor.
    + match goal with H : Ok (B "<" ++ _) = Ok _ |- _ => injection H as <- end. injection H as <-.
      rewrite <- !app_assoc. apply chw_named; [discriminate|assumption..].
  - intros H. inversion H; subst; [go; reflexivity|]. destruct n; [congruence|].
    apply bind_ok. eexists. split; [go; reflexivity|]. go. rewrite <- !app_assoc. reflexivity.
Qed.
Lemma pm_w m p : pm_marshal enc m = Ok p <-> pm_write enc m p.
Proof.
  destruct m. unfold pm_marshal. cbn. split.
  - intros H. binds. injection H as <-. now constructor.
  - intros H. inversion H; subst. go. reflexivity.
Qed.
Lemma mcto_w m p : mcto_marshal enc m = Ok p <-> mcto_write enc m p.
Proof.
  destruct m. unfold mcto_marshal. cbn. split.
  - intros H. binds. injection H as <-. now constructor.
  - intros H. inversion H; subst. go. reflexivity.
Qed.
Lemma rctm_w m p : rctm_marshal enc m = Ok p <-> rctm_write enc m p.
Proof.
  destruct m. unfold rctm_marshal. cbn. split.
  - intros H. binds. injection H as <-. now constructor.
  - intros H. inversion H; subst. go. reflexivity.
Qed.
Lemma ucmd_w m p : ucmd_marshal enc m = Ok p <-> ucmd_write enc m p.
Proof.
  destruct m as [t c path cmd]. unfold ucmd_marshal. cbn [uc_typ uc_context uc_path uc_command]. rewrite !wrap_eq, !format_dec. split.
  - intros H. apply bind_ok in H as (b & Hb & H).
    assert (P : exists pp, Forall2 sw path pp /\ b = dec_text (wrap64 t) ++ B " " ++ dec_text (wrap64 c) ++ match path with [] => [] | _ => B " " ++ sep_by (B "\") pp end).
    { destruct path as [|s l]; [injection Hb as <-; exists []; split; [constructor|now rewrite app_nil_r]|].
      apply bind_ok in Hb as (q & Hq & Hb). injection Hb as <-. apply path_w in Hq as (pl & F & ->). exists pl. split; [exact F|].
      cbn [app]. now rewrite <- !app_assoc. }
    destruct P as (pp & F & ->).
    assert (R : exists rest, (cmd = [] /\ rest = [] \/ cmd <> [] /\ exists pc, sw cmd pc /\ rest = B " $" ++ pc) /\ p = (dec_text (wrap64 t) ++ B " " ++ dec_text (wrap64 c) ++ match path with [] => [] | _ => B " " ++ sep_by (B "\") pp end) ++ rest).
    { destruct cmd; [exists []; injection H as <-; split; [now left|now rewrite app_nil_r]|].
      binds. injection H as <-. eexists. split; [right; split; [discriminate|eexists; split; [eassumption|reflexivity]]|reflexivity]. }
    destruct R as (rest & R & ->). rewrite <- !app_assoc. now constructor.
  - intros H. inversion H as [? ? ? ? pp rest F R]; subst.
    apply bind_ok. exists (dec_text (wrap64 t) ++ B " " ++ dec_text (wrap64 c) ++ match path with [] => [] | _ => B " " ++ sep_by (B "\") pp end). split.
    { destruct path as [|s l]; [now rewrite app_nil_r|]. apply bind_ok. eexists. split; [apply path_w; eexists; split; [exact F|reflexivity]|]. cbn [app]. now rewrite <- !app_assoc. }
    destruct R as [[-> ->]|(N & pc & Hc & ->)]; [now rewrite app_nil_r|].
    destruct cmd; [congruence|]. go. now rewrite <- !app_assoc.
Qed.
Lemma ctm_w m p : ctm_marshal enc m = Ok p <-> ctm_write enc m p.
Proof.
  destruct m as [t s a k secure]. unfold ctm_marshal. cbn [ct_targ ct_src ct_address ct_kind ct_secure]. split.
  - intros H. destruct t as [|t0 t]; [discriminate|]. apply bind_ok in H as (pt & Ht & H). apply name_w in Ht.
    destruct (Z.eqb_spec k 0) as [->|K0]; [|destruct (Z.eqb_spec k 1) as [->|K1]; [|destruct (Z.eqb_spec k 2) as [->|K2]; [|discriminate]]]; cbn [bind Z.eqb Pos.eqb] in H.
    + destruct s; [|discriminate]. injection H as <-. apply (ctmw enc _ a 0 secure); [discriminate|assumption|now left].
    + destruct s as [|s0 s]; [discriminate|]. apply bind_ok in H as (ps & Hs & H). apply name_w in Hs. injection H as <-.
      match goal with |- ctm_write _ _ ?q => assert (E : q = pt ++ B " " ++ a ++ B "N" ++ (if secure then B "S" else []) ++ B " " ++ ps) by (cbn; rewrite <- !app_assoc; cbn; rewrite <- !app_assoc; reflexivity); rewrite E end.
      apply ctmw_source; [discriminate|assumption|discriminate|assumption].
    + destruct s; [|discriminate]. injection H as <-. apply (ctmw enc _ a 2 secure); [discriminate|assumption|now right].
  - intros H. inversion H as [? ? ? ? pt T Ht K|? ? ? ? pt ps T Ht S Hs]; subst; destruct t as [|t0 t]; try congruence; go.
    + destruct K as [-> | ->]; reflexivity.
    + destruct s as [|s0 s]; [congruence|]. cbn [Z.eqb Pos.eqb bind]. apply bind_ok. eexists. split; [apply name_w; eassumption|]. f_equal. cbn. rewrite <- !app_assoc. cbn. now rewrite <- !app_assoc.
Qed.
Lemma adcget_w m p : adcget_marshal enc m = Ok p <-> adcget_write enc m p.
Proof.
  destruct m as [t i s l z db]. unfold adcget_marshal. cbn [ag_type ag_ident ag_start ag_length ag_compressed ag_downloaded]. rewrite !format_dec, !format_int_text. split.
  - intros H. apply bind_ok in H as (pt & Ht & H). apply bind_ok in H as (pi & Hi & H). injection H as <-. apply str_w in Ht, Hi.
    destruct db as [n|]; [rewrite format_dec; exact (adgw enc t i s l z (Some n) pt pi Ht Hi)|exact (adgw enc t i s l z None pt pi Ht Hi)].
  - intros H. inversion H; subst. go. destruct db; [now rewrite format_dec|reflexivity].
Qed.
Lemma adcsnd_w m p : adcsnd_marshal enc m = Ok p <-> adcsnd_write enc m p.
Proof.
  destruct m as [t i s l z]. unfold adcsnd_marshal. cbn [as_type as_ident as_start as_length as_compressed]. rewrite !format_dec. split.
  - intros H. binds. injection H as <-. now constructor.
  - intros H. inversion H; subst. go. reflexivity.
Qed.
Lemma hubinfo_w m p : hubinfo_marshal enc m = Ok p <-> hubinfo_write enc m p.
Proof.
  destruct m as [n host d i1 i2 i3 i4 soft vers o s e]. unfold hubinfo_marshal. cbn [hi_name hi_host hi_desc hi_i1 hi_i2 hi_i3 hi_i4 hi_soft hi_vers hi_owner hi_state hi_encoding]. rewrite !format_int_text. split.
  - intros H. apply bind_ok in H as (pn & Hn & H). apply bind_ok in H as (pd & Hd & H). apply bind_ok in H as (po & Ho & H). apply bind_ok in H as (ps & Hs & H). injection H as <-. apply str_w in Hn, Hd, Ho, Hs.
    destruct vers as [|v0 vers]; [exact (hiw_all enc n host d i1 i2 i3 i4 soft [] o s e pn pd po ps Hn Hd Ho Hs)|].
    exact (hiw_all enc n host d i1 i2 i3 i4 soft (v0 :: vers) o s e pn pd po ps Hn Hd Ho Hs).
  - intros H. inversion H; subst. go. destruct vers; reflexivity.
Qed.
Lemma myinfo_w m p : myinfo_marshal enc m = Ok p <-> myinfo_write enc m p.
Proof.
  assert (M : forall c, mode_byte c = if beq c x00 then " "%byte else c).
  { intros c. unfold mode_byte. destruct (beq_spec c x00); [reflexivity|]. cbn [orb]. destruct (beq_spec c " "); congruence. }
  assert (X : forall l, extra_text l = concat (map (fun kv => B "," ++ fst kv ++ B ":" ++ snd kv) l)) by (intros l; apply flat_map_concat_map).
  destruct m as [n d cl v mode hn hr ho slots extra conn flag email share]. unfold myinfo_marshal, tag_text. cbn [mi_name mi_desc mi_client mi_version mi_mode mi_hubs_normal mi_hubs_reg mi_hubs_op mi_slots mi_extra mi_conn mi_flag mi_email mi_share].
  rewrite !format_int_text, format_dec, M, X. split.
  - intros H. binds. apply ok_inj in H; subst p. rewrite <- !app_assoc. now constructor.
  - intros H. inversion H; subst. go. rewrite <- !app_assoc. reflexivity.
Qed.
Lemma search_w m p : sized (MSearch m) -> (search_marshal enc m = Ok p <-> search_write enc m p).
Proof.
  destruct m as [a u r x size typ pat tth]. cbn [sized se_tth]. intros Z. unfold search_marshal. cbn [se_address se_user se_restricted se_ismax se_size se_dtype se_pattern se_tth].
  rewrite !format_dec.
  assert (RR : (if r then if x then B "T?T" else B "T?F" else B "F?T") = restriction r (negb r || x)) by (destruct r, x; reflexivity). rewrite RR. clear RR.
  assert (WHO : forall q, (match a with [] => do n <- name_marshal enc u; Ok (B "Hub:" ++ n) | b :: l => Ok (b :: l) end) = Ok q <-> who_write enc a u q).
  { intros q. split.
    - intros H. destruct a; [binds; injection H as <-; now constructor|]. injection H as <-. now constructor.
    - intros H. inversion H; subst; [go; reflexivity|]. destruct q; [congruence|reflexivity]. }
  assert (WHAT : forall q, (if (typ =? data_tth)%N then match tth with None => Err (EText "invalid TTH pointer") | Some h => marshal_tth h end else do p <- string_marshal enc pat; Ok (replace_byte " " "$" p)) = Ok q <-> what_write enc typ pat tth q).
  { intros q. change data_tth with 9%N. destruct (N.eqb_spec typ 9) as [->|N].
    - split.
      + intros H. destruct tth as [h|]; [|discriminate]. apply tth_w in H as (t & H & ->); [|exact Z]. now constructor.
      + intros H. inversion H; subst; [|congruence]. apply tth_w; [exact Z|]. eauto.
    - split.
      + intros H. binds. injection H as <-. now constructor.
      + intros H. inversion H; subst; [congruence|]. go. reflexivity. }
  split.
  - intros H. apply bind_ok in H as (who & H1 & H). apply bind_ok in H as (what & H2 & H). injection H as <-. apply WHO in H1. apply WHAT in H2. now constructor.
  - intros H. inversion H as [? ? ? ? ? ? ? ? who what H1 H2]; subst. apply bind_ok. exists who. split; [now apply WHO|]. apply bind_ok. exists what. split; [now apply WHAT|]. reflexivity.
Qed.
Lemma sr_w m p : sized (MSR m) -> (sr_marshal enc m = Ok p <-> sr_write enc m p).
Proof.
  destruct m as [f path isdir size free total hub tth addr to]. cbn [sized sr_tth]. intros Z. unfold sr_marshal.
  cbn [sr_from sr_path sr_isdir sr_size sr_free sr_total sr_hubname sr_tth sr_hubaddr sr_to]. rewrite !format_dec, !format_int_text.
  assert (HUB : forall q, (match tth with Some t => marshal_tth t | None => string_marshal enc hub end) = Ok q <-> match tth with Some h => exists t, hash_spelled h t /\ q = B "TTH:" ++ t | None => sw hub q end).
  { intros q. destruct tth; [apply tth_w; exact Z|apply str_w]. }
  assert (TO : forall q, (match to with [] => Ok [] | c :: t => do b <- name_marshal enc (c :: t); Ok (sr_sep :: b) end) = Ok q <-> (to = [] /\ q = [] \/ to <> [] /\ exists b, nw to b /\ q = x05 :: b)).
  { intros q. destruct to as [|c to].
    - split; [intros [= <-]; now left|]. intros [[_ ->]|[N _]]; congruence.
    - split.
      + intros H. binds. injection H as <-. right. split; [discriminate|eauto].
      + intros [[N _]|(_ & b & H & ->)]; [discriminate|]. go. reflexivity. }
  split.
  - intros H. apply bind_ok in H as (pf & H1 & H). apply name_w in H1. destruct path as [|c0 path]; [discriminate|]. apply bind_ok in H as (pp & H2 & H). apply path_w in H2 as (pl & F & ->).
    apply bind_ok in H as (ph & H3 & H). apply HUB in H3. apply bind_ok in H as (pto & H4 & H). apply TO in H4. injection H as <-.
    apply srw; [exact H1|discriminate|exact F|exact H3|exact H4].
  - intros H. inversion H as [? ? ? ? ? ? ? ? ? ? pf pp ph pto H1 NP F H3 H4]; subst. go. destruct path as [|c0 path]; [congruence|].
    apply bind_ok. eexists. split; [apply path_w; eexists; split; [exact F|reflexivity]|]. apply bind_ok. exists ph. split; [now apply HUB|].
    apply bind_ok. exists pto. split; [now apply TO|]. reflexivity.
Qed.
Lemma sa_w m p : sized (MSA m) -> (sa_marshal m = Ok p <-> sa_write m p).
Proof.
  destruct m as [h a]. cbn [sized sa_tth]. intros Z. unfold sa_marshal. cbn [sa_tth sa_address]. split.
  - intros H. apply bind_ok in H as (t & H1 & H). apply tths_w in H1 as (q & H1 & ->); [|exact Z]. injection H as <-. rewrite <- app_assoc. now constructor.
  - intros H. inversion H; subst. apply bind_ok. eexists. split; [apply tths_w; [exact Z|]; eauto|]. now rewrite <- app_assoc.
Qed.
Lemma sp_w m p : sized (MSP m) -> (sp_marshal enc m = Ok p <-> sp_write enc m p).
Proof.
  destruct m as [h a]. cbn [sized sp_tth]. intros Z. unfold sp_marshal. cbn [sp_tth sp_user]. split.
  - intros H. apply bind_ok in H as (t & H1 & H). apply tths_w in H1 as (q & H1 & ->); [|exact Z]. binds. injection H as <-. rewrite <- app_assoc. now constructor.
  - intros H. inversion H; subst. apply bind_ok. eexists. split; [apply tths_w; [exact Z|]; eauto|]. go. now rewrite <- app_assoc.
Qed.
Lemma lock_w m p : lock_marshal m = p <-> lock_write m p.
Proof.
  unfold lock_write, lock_marshal. assert (E : forall a b : bytes, a = b -> (a = p <-> p = b)) by (intros; subst; split; congruence). apply E. do 2 f_equal.
  destruct (lk_pk m) as [|k pk], (lk_ref m) as [|r ref]; cbn; rewrite ?app_nil_r; reflexivity.
Qed.
Theorem writes_iff m p : sized m -> (msg_marshal enc m = Ok p <-> writes enc m p).
Proof.
  intros Z. split.
  - intros H. destruct m; cbn [msg_marshal] in H.
    + constructor. now apply name_w.
    + constructor. now apply str_w.
    + injection H as <-. constructor.
    + injection H as <-. constructor.
    + destruct e; cbn [err_marshal] in H; [constructor; now apply str_w|]. injection H as <-. constructor.
    + constructor. unfold names_marshal in H. destruct l; [injection H as <-; constructor|]. apply names_w in H as (pl & F & ->). constructor; [discriminate|exact F].
    + constructor. now apply chat_w.
    + constructor. now apply pm_w.
    + constructor. now apply mcto_w.
    + constructor. now apply ucmd_w.
    + constructor. now apply ctm_w.
    + constructor. now apply rctm_w.
    + constructor. now apply adcget_w.
    + constructor. now apply adcsnd_w.
    + injection H as <-. destruct m as [up n]. unfold direction_marshal. cbn [di_upload di_number]. rewrite format_int_text, signed_eq. constructor.
    + injection H as <-. unfold failover_marshal. rewrite join_sep. constructor.
    + constructor. injection H as H. now apply lock_w.
    + constructor. now apply hubinfo_w.
    + constructor. now apply search_w.
    + constructor. now apply sr_w.
    + constructor. now apply sa_w.
    + constructor. now apply sp_w.
    + constructor. now apply myinfo_w.
    + constructor. now apply userip_w.
    + injection H as <-. unfold supports_marshal. rewrite join_sep. constructor.
    + injection H as <-. constructor.
  - intros H. destruct H; cbn [msg_marshal].
    + now apply name_w.
    + now apply str_w.
    + reflexivity.
    + reflexivity.
    + reflexivity.
    + now apply str_w.
    + unfold names_marshal. destruct H as [|l pl N F]; [reflexivity|]. destruct l; [congruence|]. apply names_w. eauto.
    + now apply chat_w.
    + now apply pm_w.
    + now apply mcto_w.
    + now apply ucmd_w.
    + now apply ctm_w.
    + now apply rctm_w.
    + now apply adcget_w.
    + now apply adcsnd_w.
    + unfold direction_marshal. cbn [di_upload di_number]. rewrite format_int_text, signed_eq. reflexivity.
    + unfold failover_marshal. now rewrite join_sep.
    + apply lock_w in H. now rewrite H.
    + now apply hubinfo_w.
    + now apply search_w.
    + now apply sr_w.
    + now apply sa_w.
    + now apply sp_w.
    + now apply myinfo_w.
    + now apply userip_w.
    + unfold supports_marshal. now rewrite join_sep.
    + reflexivity.
Qed.
End W.
