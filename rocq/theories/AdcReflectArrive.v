(** Proofs about structures of a program that arrive unchanged. *)
From Verif Require Import Base BaseFacts Num NumFacts AdcText AdcTextFacts AdcValue AdcMessageFacts AdcWriteFacts AdcReuse AdcReflect.
From Verif Require NmdcChatFacts.
From Verif Require Import SpecText SpecAdc SpecAdcWrite SpecReflect AdcReflectFacts.
From Coq Require Import Lia ZArith.

Section Arrive.
Variable M : nat -> gmethods.
Variable pf : bool -> bytes -> float_result.

(** Words behind what has been written *)
Fixpoint spaced (first : bool) (ws : list bytes) : bytes :=
  match ws with [] => [] | w :: r => (if first then [] else B " ") ++ w ++ spaced false r end.
Lemma spaced_app ws1 : forall first ws2, spaced first (ws1 ++ ws2) = spaced first ws1 ++ spaced (match ws1 with [] => first | _ => false end) ws2.
Proof.
  induction ws1 as [|w ws1 IH]; intros first ws2; [reflexivity|]. cbn [app spaced]. rewrite IH, <- !app_assoc. do 3 f_equal. now destruct ws1.
Qed.
Lemma spaced_false ws : spaced false ws = match ws with [] => [] | _ => B " " ++ join (B " ") ws end.
Proof.
  induction ws as [|w ws IH]; [reflexivity|]. cbn [spaced]. rewrite IH. destruct ws; cbn [join]; rewrite ?app_nil_r; reflexivity.
Qed.
Lemma spaced_join ws : spaced true ws = join (B " ") ws.
Proof. destruct ws as [|w ws]; [reflexivity|]. cbn [spaced]. rewrite spaced_false. destruct ws; cbn [join app]; rewrite ?app_nil_r; reflexivity. Qed.

Definition lead_name (n : bytes) : bytes := if bytes_eqb n (B "#") then [] else n.
Lemma lead_split n first : lead n first = (if first then [] else B " ") ++ lead_name n.
Proof. reflexivity. Qed.

Lemma items_arrive n e l xs : Forall2 (portable M pf e) l xs -> forall buf first,
  items_written M n e l buf first (buf ++ spaced first (map (app (lead_name n)) xs)) (match xs with [] => first | _ => false end) Good.
Proof.
  induction 1 as [|v x l xs (Y & S & W & R) F IH]; intros buf first.
  - cbn. rewrite app_nil_r. constructor.
  - cbn [map spaced]. apply iw_next with (buf1 := (buf ++ lead n first) ++ x); [apply W|].
    specialize (IH ((buf ++ lead n first) ++ x) false). rewrite !lead_split in IH. rewrite !lead_split. repeat rewrite <- app_assoc in IH. repeat rewrite <- app_assoc.
    destruct xs; exact IH.
Qed.

Lemma no_field_parts tag : no_field tag -> tag_parts tag tag None.
Proof.
  intros [E|E]; rewrite E; constructor; [intros []|]. intros [I|[]]. discriminate.
Qed.
Lemma parts_same tag n o m p : tag_parts tag n o -> tag_parts tag m p -> n = m.
Proof. intros A A'. apply tag_parts_name in A, A'. destruct A, A'. congruence. Qed.
Lemma parts_opt tag n o m p : tag_parts tag n o -> tag_parts tag m p -> (o = Some (B "req") <-> p = Some (B "req")).
Proof. intros A A'. apply tag_parts_name in A, A'. destruct A as [_ A], A' as [_ A']. now rewrite <- A, <- A'. Qed.
Lemma proper_tag tag n o : tag_parts tag n o -> proper n -> ~ no_field tag.
Proof. intros A (P & _) N. pose proof (parts_same _ _ _ _ _ (no_field_parts _ N) A). subst. contradiction. Qed.
Lemma hash_tag tag o : tag_parts tag (B "#") o -> ~ no_field tag.
Proof. intros A N. pose proof (parts_same _ _ _ _ _ (no_field_parts _ N) A). subst. destruct N; discriminate. Qed.

Lemma arrive_written f v n o xs : tag_parts (gf_tag f) n o -> arrives M pf f v xs -> forall buf first,
  field_written M f v buf first (buf ++ spaced first (map (app (lead_name n)) xs)) (match xs with [] => first | _ => false end) Good.
Proof.
  intros T A buf first. destruct A as [N|o' v x T' X (Y & S & W & R)|n' o' T' P D IC H|n' o' k e T' P X TT U|n' o' k e l xs T' P X TT U PL NE F
    |n' o' v x T' P X D H (Y & S & W & R)]; try (pose proof (parts_same _ _ _ _ _ T T'); subst n).
  - cbn. rewrite app_nil_r. now apply fw_skip.
  - cbn [map spaced]. rewrite app_nil_r. apply fw_value with (n := B "#") (o := o'); try assumption.
    + eapply hash_tag, T.
    + left. now left.
    + now left.
    + specialize (W (buf ++ lead (B "#") first)). rewrite !lead_split in W. rewrite !lead_split. repeat rewrite <- app_assoc in W. repeat rewrite <- app_assoc. exact W.
  - cbn. rewrite app_nil_r. apply fw_omitted with (n := n') (o := o'); try assumption; [eapply proper_tag; eassumption|reflexivity].
  - cbn. rewrite app_nil_r. assert (N : ~ no_field (gf_tag f)) by (eapply proper_tag; eassumption).
    assert (DD : demanded n' o' \/ ~ demanded n' o').
    { unfold demanded. destruct (bytes_eqb_spec n' (B "#")); [tauto|]. destruct o' as [r|]; [|right; intros [|]; congruence].
      destruct (bytes_eqb_spec r (B "req")); [left; right; congruence|right; intros [|]; congruence]. }
    destruct DD as [DD|DD].
    + apply fw_slice with (n := n') (o := o') (k := k) (e := e); try assumption; [now left|now destruct P|constructor].
    + apply fw_omitted with (n := n') (o := o'); try assumption; [now left| |rewrite TT; reflexivity].
      intros (? & ? & E). rewrite E in TT. discriminate.
  - apply fw_slice with (n := n') (o := o') (k := k) (e := e); try assumption; [eapply proper_tag; eassumption|right; discriminate|now destruct P|].
    now apply items_arrive.
  - cbn [map spaced]. rewrite app_nil_r. apply fw_value with (n := n') (o := o'); try assumption.
    + eapply proper_tag; eassumption.
    + destruct H as [[H _]|H]; tauto.
    + specialize (W (buf ++ lead n' first)). rewrite !lead_split in W. rewrite !lead_split. repeat rewrite <- app_assoc in W. repeat rewrite <- app_assoc. exact W.
Qed.

Lemma all_written fs vs ws : all_arrive M pf fs vs ws -> forall buf first, struct_written M fs vs buf first (buf ++ spaced first ws) Fine.
Proof.
  induction 1 as [|f fs n o v vs xs ws T A _ IH]; intros buf first.
  - cbn. rewrite app_nil_r. constructor.
  - rewrite spaced_app, app_assoc. eapply sw_next; [apply (arrive_written _ _ _ _ _ T A)|].
    destruct xs; apply IH.
Qed.

Lemma arrive_typed f v xs : arrives M pf f v xs -> typed (gf_type f) v.
Proof.
  intros [N|o' v' x T' X (Y & _)|n' o' T' P D IC H|n' o' k e T' P X -> U|n' o' k e l xs' T' P X -> U PL NE F|n' o' v' x T' P X D H (Y & _)]; try assumption.
  - destruct (gf_type f) as [| |? []|? []| | |]; cbn; unfold fits; cbn; lia || exact Logic.I.
  - destruct (gf_type f) as [| |? []|? []| | |]; cbn; unfold fits; cbn; lia || exact Logic.I.
  - exact Logic.I.
  - cbn. clear NE. induction F as [|? ? ? ? (Y & _) _ IH]; [exact Logic.I|]. now split.
Qed.
Lemma all_typed fs vs ws : all_arrive M pf fs vs ws -> Forall2 (fun f v => typed (gf_type f) v) fs vs.
Proof. induction 1; constructor; [eapply arrive_typed; eassumption|assumption]. Qed.

(** ** Reading *)

Lemma after_app n a b : after n (a ++ b) = after n a ++ after n b.
Proof. apply flat_map_app. Qed.
Lemma after_own n xs : after n (map (app n) xs) = xs.
Proof.
  induction xs as [|x xs IH]; [reflexivity|]. cbn [map]. unfold after in *. cbn [flat_map].
  rewrite firstn_app, firstn_all, Nat.sub_diag, firstn_O, app_nil_r, bytes_eqb_refl, skipn_app, skipn_all, Nat.sub_diag. cbn [app skipn]. now rewrite IH.
Qed.
Lemma after_other n m xs : (forall r, n <> m ++ r /\ m <> n ++ r) -> after n (map (app m) xs) = [].
Proof.
  intros H. induction xs as [|x xs IH]; [reflexivity|]. cbn [map]. unfold after in *. cbn [flat_map]. rewrite IH, app_nil_r.
  destruct (bytes_eqb_spec (firstn (length n) (m ++ x)) n) as [E|]; [|reflexivity]. exfalso.
  rewrite firstn_app in E. destruct (Nat.le_ge_cases (length n) (length m)) as [L|L].
  - replace (length n - length m) with 0 in E by lia. rewrite firstn_O, app_nil_r in E.
    apply (proj2 (H (skipn (length n) m))). rewrite <- E at 1. symmetry. apply firstn_skipn.
  - rewrite firstn_all2 in E by assumption. now apply (proj1 (H (firstn (length n - length m) x))).
Qed.

Lemma good_own t f x old v : decodes_itself M t f -> value_read M pf t x old v Good -> f old x = (v, MDone).
Proof.
  intros D V. apply itself_iff in D. destruct (decode_complete _ _ _ _ _ _ _ V) as (r & E & R). apply ended_good in R. subst r.
  destruct t; cbn [g_decode] in E; rewrite D in E; exact E.
Qed.

Lemma arrive_named f v n o xs W : tag_parts (gf_tag f) n o -> n <> B "#" -> arrives M pf f v xs -> after n W = xs \/ no_field n ->
  field_read M pf f W W (blank (gf_type f)) v Good.
Proof.
  intros T NH A AF. destruct A as [N|o' v x T' X Y|n' o' T' P D IC H|n' o' k e T' P X TT U|n' o' k e l xs T' P X TT U PL NE F
    |n' o' v x T' P X D H (Y & S & W' & R)]; try (pose proof (parts_same _ _ _ _ _ T T'); subst n);
    try (assert (AF' : after n' W = _) by (destruct AF as [AF|AF]; [exact AF|now destruct P]); clear AF).
  - apply fr_skip with (n := gf_tag f) (o := None); [now apply no_field_parts|assumption].
  - congruence.
  - apply fr_absent with (n := n') (o := o'); try assumption; now destruct P.
  - rewrite TT. apply fr_absent with (n := n') (o := o'); try assumption; now destruct P.
  - apply fr_named with (n := n') (o := o'); try assumption; try (now destruct P). rewrite AF'.
    apply nr_slice with (n := k) (e := e); try assumption.
    clear NE AF'. unfold items_read. induction F as [|? ? ? ? (_ & _ & _ & R) _ IH]; constructor; assumption.
  - apply fr_named with (n := n') (o := o'); try assumption; try (now destruct P). rewrite AF'.
    destruct (gm_decode (methods_of M (gf_type f))) as [d|] eqn:G.
    + apply itself_iff in G. change Good with (ended MDone). apply nr_own with (f := d); [assumption|]. eapply good_own; eassumption.
    + apply plain_iff in G. destruct H as [[_ (d & H)]|H]; [|now apply nr_single].
      apply itself_iff in H. apply plain_iff in G. congruence.
Qed.

Lemma after_words fs vs ws : all_arrive M pf fs vs ws -> forall n, 
  Forall (fun g => forall m p, tag_parts (gf_tag g) m p -> m <> B "#" /\ (~ no_field m -> forall r, n <> m ++ r /\ m <> n ++ r)) fs -> after n ws = [].
Proof.
  induction 1 as [|f fs m o v vs xs ws T A _ IH]; intros n F; [reflexivity|]. inversion F as [|? ? D F']; subst.
  rewrite after_app, IH by assumption. rewrite app_nil_r. destruct (D _ _ T) as [NH DD]. fold (lead_name m).
  assert (E : lead_name m = m) by (unfold lead_name; destruct (bytes_eqb_spec m (B "#")); congruence). rewrite E.
  destruct A as [N|o' v x T' X Y|n' o' T' P _ IC H|n' o' k e T' P X TT U|n' o' k e l xs T' P X TT U PL NE F2|n' o' v x T' P X _ H Y];
    try reflexivity; try (pose proof (parts_same _ _ _ _ _ T T'); subst m).
  - congruence.
  - apply after_other, DD. now destruct P.
  - apply after_other, DD. now destruct P.
Qed.

Lemma names_read ns : forall vs ws B0, all_arrive M pf ns vs ws ->
  Forall (fun f => forall o, ~ tag_parts (gf_tag f) (B "#") o) ns -> ForallOrdPairs distinguished ns ->
  Forall (fun f => forall n o, tag_parts (gf_tag f) n o -> ~ no_field n -> after n B0 = []) ns ->
  struct_read M pf ns (B0 ++ ws) (map (fun f => blank (gf_type f)) ns) vs Fine.
Proof.
  induction ns as [|f ns IH]; intros vs ws B0 A N D F; inversion A as [|? ? n o v vs' xs ws' T A1 A2]; subst; [constructor|].
  inversion N as [|? ? Nf N']; subst. inversion D as [|? ? Df D']; subst. inversion F as [|? ? Ff F']; subst.
  assert (NH : n <> B "#") by (intros ->; now apply (Nf o)). fold (lead_name n).
  assert (E : lead_name n = n) by (unfold lead_name; destruct (bytes_eqb_spec n (B "#")); congruence). rewrite E.
  cbn [map]. apply sr_next with (ws' := B0 ++ map (app n) xs ++ ws').
  - apply (arrive_named _ _ _ _ _ _ T NH A1). destruct (tag_skips n) eqn:K; [right; now apply skips_iff|left].
    assert (K' : ~ no_field n) by (rewrite <- skips_iff; congruence).
    rewrite !after_app, after_own, (Ff _ _ T K'). cbn [app]. rewrite (after_words _ _ _ A2 n); [apply app_nil_r|].
    apply Forall_forall. intros g G m p T2. rewrite Forall_forall in N', Df.
    split; [intros ->; now apply (N' g G p)|]. intros K2 r. now apply (Df g G _ _ _ _ r T T2).
  - rewrite app_assoc. apply IH; try assumption. apply Forall_forall. intros g G m p T2 K2. rewrite after_app.
    rewrite Forall_forall in F', Df. rewrite (F' g G m p T2 K2). cbn [app].
    destruct (tag_skips n) eqn:K.
    + apply skips_iff in K. assert (xs = []) as ->; [|reflexivity].
      destruct A1 as [|? ? ? T'|? ? T' P|? ? ? ? T' P|? ? ? ? ? ? T' P|? ? ? ? T' P]; try reflexivity; pose proof (parts_same _ _ _ _ _ T T'); subst n;
        [destruct K; discriminate|now destruct P|now destruct P].
    + apply after_other. intros r. assert (K' : ~ no_field n) by (rewrite <- skips_iff; congruence).
      destruct (Df g G _ _ _ _ r T T2 K' K2). now split.
Qed.

Lemma all_read ps ns : Forall (fun f => no_field (gf_tag f) \/ exists o, tag_parts (gf_tag f) (B "#") o) ps ->
  Forall (fun f => forall o, ~ tag_parts (gf_tag f) (B "#") o) ns -> ForallOrdPairs distinguished ns ->
  forall vs ws B0, all_arrive M pf (ps ++ ns) vs ws ->
  Forall (fun f => forall n o, tag_parts (gf_tag f) n o -> ~ no_field n -> after n B0 = []) ns ->
  (ps = [] \/ B0 = [] \/ Forall (fun f => no_field (gf_tag f)) ps) ->
  struct_read M pf (ps ++ ns) (B0 ++ ws) (map (fun f => blank (gf_type f)) (ps ++ ns)) vs Fine.
Proof.
  intros P N D. induction P as [|f ps Pf P IH]; intros vs ws B0 A F C; [now apply names_read|].
  cbn [app map] in *. inversion A as [|? ? n o v vs' xs ws' T A1 A2]; subst. destruct Pf as [Pf|[o' Pf]].
  - pose proof (parts_same _ _ _ _ _ T (no_field_parts _ Pf)). subst n.
    assert (xs = [] /\ v = blank (gf_type f)) as [-> ->].
    { destruct A1 as [|? ? ? T'|? ? T' Q|? ? ? ? T' Q|? ? ? ? ? ? T' Q|? ? ? ? T' Q]; try (now split); exfalso;
        first [eapply hash_tag; eassumption|eapply proper_tag; eassumption]. }
    cbn [map app]. apply sr_next with (ws' := B0 ++ ws').
    + apply fr_skip with (n := gf_tag f) (o := None); [now apply no_field_parts|assumption].
    + apply IH; try assumption. destruct C as [C|[C|C]]; [discriminate|tauto|]. right. right. now inversion C.
  - pose proof (parts_same _ _ _ _ _ T Pf). subst n. destruct C as [C|[->|C]]; [discriminate| |inversion C; subst; exfalso; eapply hash_tag; eassumption].
    assert (exists x, xs = [x] /\ gf_exported f = true /\ portable M pf (gf_type f) v x) as (x & -> & X & Y).
    { destruct A1 as [N1|? ? x T' X Y|? ? T' Q|? ? ? ? T' Q|? ? ? ? ? ? T' Q|? ? ? ? T' Q];
        [exfalso; eapply hash_tag; eassumption|eauto|..]; exfalso; pose proof (parts_same _ _ _ _ _ T' Pf); subst; destruct Q as (_ & Q & _); congruence. }
    cbn [map app bytes_eqb]. apply sr_next with (ws' := ws').
    + apply fr_word with (o := o'); try assumption. now destruct Y as (_ & _ & _ & Y).
    + apply (IH vs' ws' []); [assumption| |tauto]. apply Forall_forall. reflexivity.
Qed.

Lemma words_plain fs vs ws : all_arrive M pf fs vs ws -> Forall (fun w => ~ In " "%byte w) ws.
Proof.
  induction 1 as [|f fs n o v vs xs ws T A _ IH]; [constructor|]. apply Forall_app. split; [|assumption].
  apply Forall_forall. intros w I. apply in_map_iff in I. destruct I as (x & <- & I). rewrite in_app_iff. fold (lead_name n).
  destruct A as [N|o' v x' T' X (Y & S & _)|n' o' T' P _ IC H|n' o' k e T' P X TT U|n' o' k e l xs T' P X TT U PL NE F2|n' o' v x' T' P X _ H (Y & S & _)];
    try contradiction; pose proof (parts_same _ _ _ _ _ T T'); subst n.
  - destruct I as [->|[]]. cbn. intros [[]|]; contradiction.
  - assert (Sx : ~ In " "%byte x).
    { clear - F2 I. induction F2 as [|? ? ? ? (_ & S & _) _ IH]; [contradiction|]. destruct I as [->|I]; [assumption|now apply IH]. }
    intros [J|J]; [|contradiction]. destruct P as (_ & _ & P). apply P. unfold lead_name in J. now destruct (bytes_eqb n' (B "#")).
  - destruct I as [->|[]]. intros [J|J]; [|contradiction]. destruct P as (_ & _ & P). apply P. unfold lead_name in J. now destruct (bytes_eqb n' (B "#")).
Qed.

Lemma arrive_roundtrip fs vs ws : orderly fs -> all_arrive M pf fs vs ws ->
  g_marshal M fs vs [] = (join (B " ") ws, EndDone) /\
  g_unmarshal M pf fs (join (B " ") ws) (map (fun f => blank (gf_type f)) fs) = (vs, EndDone).
Proof.
  intros (ps & ns & -> & P & N & D) A. split.
  - destruct (marshal_complete M (ps ++ ns) vs [] true (join (B " ") ws) Fine) as (e & E & C).
    + eapply all_typed, A.
    + rewrite <- spaced_join. change (spaced true ws) with ([] ++ spaced true ws). now apply all_written.
    + unfold g_marshal. rewrite E. destruct e; try discriminate. reflexivity.
  - unfold g_unmarshal.
    assert (S : exists B0, split_byte " " (join (B " ") ws) = B0 ++ ws /\ (ws <> [] /\ B0 = [] \/ ws = [] /\ B0 = [[]])).
    { destruct ws as [|w ws]; [exists [[]]; split; [reflexivity|right; now split]|]. exists []. split; [|left; split; [discriminate|reflexivity]].
      apply separated_split. split; [discriminate|]. split; [eapply words_plain, A|reflexivity]. }
    destruct S as (B0 & -> & C).
    assert (R : struct_read M pf (ps ++ ns) (B0 ++ ws) (map (fun f => blank (gf_type f)) (ps ++ ns)) vs Fine).
    { apply all_read; try assumption.
      - apply Forall_forall. intros f _ n o T K. destruct C as [[_ ->]|[_ ->]]; [reflexivity|]. unfold after. cbn [flat_map].
        rewrite firstn_nil. destruct (bytes_eqb_spec [] n) as [<-|]; [|reflexivity]. destruct K. now left.
      - destruct C as [[_ ->]|[-> ->]]; [tauto|]. right. right. clear N D. revert vs A. induction P as [|f ps Pf P IH]; intros vs A; [constructor|].
        cbn [app] in A. inversion A as [|? ? n o v vs' xs ws' T A1 A2 E1 E2 E3]; subst.
        destruct (app_eq_nil _ _ E3) as [E4 ->]. apply map_eq_nil in E4. subst xs. constructor; [|eapply IH; eassumption].
        destruct Pf as [|[o' Pf]]; [assumption|]. exfalso.
        inversion A1 as [N1 E E'|? ? x T' X Y|? ? T' Q|? ? ? ? T' Q|? ? ? ? ? ? T' Q ? ? ? ? NE|? ? ? ? T' Q]; subst;
          [eapply hash_tag; eassumption|pose proof (parts_same _ _ _ _ _ T' Pf); subst; destruct Q as (_ & Q & _); congruence..|congruence]. }
    destruct (fields_complete _ _ _ _ _ _ _ R) as (e & E & Ce). rewrite E. destruct e; try discriminate. reflexivity.
Qed.

(** ** Values of types without methods *)

Lemma written_text t v x : portable M pf t v x -> g_encode M t v [] = (x, MDone).
Proof.
  intros (Y & _ & W & _). destruct (encode_complete M t v [] x Good Y (W [])) as (r & E & R). apply ended_good in R. now subst.
Qed.
Lemma read_value t v x : portable M pf t v x -> g_decode M pf t x (blank t) = (v, MDone).
Proof.
  intros (_ & _ & _ & V). destruct (decode_complete _ _ _ _ _ _ _ V) as (r & E & R). apply ended_good in R. now subst.
Qed.

Lemma portable_string n s x : mute M (GString n) -> plain M (GString n) -> (portable M pf (GString n) (VStr s) x <-> escaped s x).
Proof.
  intros U P. split.
  - intros H. apply written_text in H. cbn [g_encode] in H. rewrite (proj2 (mute_iff M (GString n) (VStr s) Logic.I) U) in H. injection H as <-. apply escape_escaped.
  - intros E. split; [exact Logic.I|]. pose proof (escaped_escape _ _ E). subst x. split; [apply escape_no_sp|]. split; [intros buf; now apply vw_string|].
    destruct (escape s) as [|c e] eqn:F.
    + assert (s = []) as -> by (inversion E; reflexivity). apply (vr_empty M pf (GString n)). assumption.
    + rewrite <- F. apply vr_string; [assumption|rewrite F; discriminate|]. pose proof (unescape_denotes (escape s)) as D. now rewrite unescape_escape in D.
Qed.
Lemma portable_int n w z x : mute M (GInt n w) -> plain M (GInt n w) -> w <> Bits8 -> fits w z ->
  (portable M pf (GInt n w) (VInt z) x <-> x = number_text z).
Proof.
  intros U P N F. split.
  - intros H. apply written_text in H. cbn [g_encode] in H. rewrite (proj2 (mute_iff M (GInt n w) (VInt z) F) U), number_format in H. destruct w; try congruence; now injection H as <-.
  - intros ->. split; [exact F|]. rewrite <- number_format. split; [apply format_int_notin; [reflexivity|discriminate]|]. split; [intros buf; rewrite number_format; now apply vw_int|].
    assert (I : int64 z) by (destruct w; unfold fits in F; cbn [size] in F; unfold int64; lia).
    assert (S : parse_int64 (format_int z) = Ok z) by now apply parse_int64_format.
    apply signed_int in S. apply vr_int with (z := z); try assumption; [now destruct S| |].
    + destruct w; try congruence; unfold accepted, fits in *; cbn [size] in *; lia.
    + split; [exact F|exists 0%Z; lia].
Qed.
Lemma portable_flag n b x : mute M (GBool n) -> plain M (GBool n) -> (portable M pf (GBool n) (VBool b) x <-> b = true /\ x = B "1").
Proof.
  intros U P. split.
  - intros H. pose proof (written_text _ _ _ H) as W. cbn [g_encode] in W. rewrite (proj2 (mute_iff M (GBool n) (VBool b) Logic.I) U) in W.
    destruct b; injection W as <-; [now split|]. apply read_value in H. cbn [g_decode] in H. apply plain_iff in P. rewrite P in H. discriminate.
  - intros [-> ->]. split; [exact Logic.I|]. split; [cbn; intuition discriminate|]. split; [intros buf; exact (vw_bool M n true buf U)|].
    apply (vr_flag M pf n "1"%byte); [assumption|]. split; [discriminate|reflexivity].
Qed.
Lemma portable_uint n w k x : mute M (GUint n w) -> plain M (GUint n w) -> ~ portable M pf (GUint n w) (VUint k) x.
Proof.
  intros U P H. pose proof H as (Y & _). pose proof (written_text _ _ _ H) as W. apply read_value in H. cbn [g_decode g_encode] in H, W.
  rewrite (proj2 (mute_iff M (GUint n w) (VUint k) Y) U) in W. apply plain_iff in P. rewrite P in H.
  destruct x as [|c x]; [|discriminate]. pose proof (NmdcChatFacts.format_cons k) as (c & r & E & _). rewrite E in W. destruct w; discriminate.
Qed.
Lemma portable_nil t x : mute M (GPtr t) -> (portable M pf (GPtr t) (VPtr None) x <-> x = []).
Proof.
  intros U. split.
  - intros H. apply written_text in H. cbn [g_encode] in H. rewrite (proj2 (mute_iff M (GPtr t) (VPtr None) Logic.I) U) in H. congruence.
  - intros ->. split; [exact Logic.I|]. split; [intros []|]. split; [intros buf; rewrite app_nil_r; now apply vw_nil|].
    apply (vr_empty M pf (GPtr t)). apply plain_iff. reflexivity.
Qed.
Lemma portable_pointer t v x : mute M (GPtr t) -> (portable M pf (GPtr t) (VPtr (Some v)) x <-> x <> [] /\ portable M pf t v x).
Proof.
  intros U. split.
  - intros H. pose proof (read_value _ _ _ H) as R. destruct H as (Y & S & W & V).
    assert (N : x <> []) by (intros ->; cbn [g_decode methods_of no_methods gm_decode] in R; discriminate). split; [assumption|].
    split; [exact Y|]. split; [assumption|]. split.
    + intros buf. destruct (encode_complete M _ _ _ _ _ Y (W buf)) as (r & E & G). apply ended_good in G. subst r.
      cbn [g_encode] in E. rewrite (proj2 (mute_iff M (GPtr t) (VPtr (Some v)) Y) U) in E. change Good with (ended MDone). now apply encode_sound.
    + destruct x as [|c x]; [congruence|]. cbn [g_decode methods_of no_methods gm_decode] in R. rewrite zero_blank in R.
      destruct (g_decode M pf t (c :: x) (blank t)) as [u e] eqn:E. destruct e; try discriminate. injection R as ->.
      change Good with (ended MDone). now apply decode_sound.
  - intros (N & Y & S & W & V). split; [exact Y|]. split; [assumption|]. split; [intros buf; now apply vw_pointer|now apply vr_pointer].
Qed.
(** A type with both methods *)
Lemma portable_own t n f d v x : type_number t = Some n -> gm_value (M n) = Some f -> gm_decode (M n) = Some d -> typed t v ->
  ~ In " "%byte x -> (forall buf, f v buf = (buf ++ x, MDone)) -> d (blank t) x = (v, MDone) -> portable M pf t v x.
Proof.
  intros N F D Y S W V. split; [assumption|]. split; [assumption|]. split.
  - intros buf. change Good with (ended MDone). apply vw_own with (m := f v); [now apply wi_value with (n := n)|apply W].
  - change Good with (ended MDone). apply vr_own with (f := d); [exists n; now split|assumption].
Qed.
End Arrive.

(** ** Types are kept *)
Section Typed.
Variable M : nat -> gmethods.
Variable pf : bool -> bytes -> float_result.
Definition keeps (t0 : gtype) : Prop := forall t d, part t0 t -> decodes_itself M t d -> forall old x v r, typed t old -> d old x = (v, r) -> typed t v.

Lemma blank_typed t : typed t (blank t).
Proof. destruct t as [| |? []|? []| | |]; cbn; unfold fits; cbn; lia || exact Logic.I. Qed.
Lemma value_typed t x old v r : value_read M pf t x old v r -> keeps t -> typed t old -> typed t v.
Proof.
  induction 1 as [t f x old v r D E|t old P|n x old s P N D|n c old b P F|n x old P L|n w x old z z' P W D A K
    |n w x old z z' P W N NN b B F K|n w x old P W N NN b B F|n w x old P W N NN b B F|t x old v N V IH|t x old v r N V IH NG|t x old P U N];
    intros keep Y; try assumption; try exact Logic.I; try (now destruct K).
  - eapply keep; try eassumption. constructor.
  - apply blank_typed.
  - apply IH; [|apply blank_typed]. intros t' d I. apply keep. now constructor.
Qed.
Lemma named_typed t xs old v r : named_read M pf t xs old v r -> keeps t -> typed t old -> typed t v.
Proof.
  intros [f x more old' v' r' D E|n e xs' old' vs P -> N I|n e xs' old' r' P -> F|x old' v' r' P S V|xs' old' P S L] keep Y; try assumption.
  - eapply keep; try eassumption. constructor.
  - assert (K : keeps e) by (intros t' d Q; apply keep; now constructor). cbn. clear N. unfold items_read in I. induction I as [|? ? ? ? V _ IH]; [exact Logic.I|]. split; [eapply value_typed; [exact V|exact K|apply blank_typed]|exact IH].
  - eapply value_typed; eassumption.
Qed.
Lemma struct_typed fs ws olds vs c : struct_read M pf fs ws olds vs c -> faithful M fs -> Forall2 (fun f v => typed (gf_type f) v) fs olds ->
  Forall2 (fun f v => typed (gf_type f) v) fs vs.
Proof.
  assert (G : forall f ws ws' old v r, field_read M pf f ws ws' old v r -> keeps (gf_type f) -> typed (gf_type f) old -> typed (gf_type f) v).
  { intros f ws0 ws' old v r [n o ws1 old' T K|o x ws1 old' v' r' T X V|o old' T|o x ws1 old' T X|n o ws1 old' T K H A|n o ws1 old' v' r' T K H X N|n o ws1 old' T K H X A] KP Y;
      try assumption; [eapply value_typed; eassumption|eapply named_typed; eassumption]. }
  induction 1 as [ws|f fs ws ws' old v olds vs c F _ IH|f fs ws ws' old v olds r F N L]; intros K T; inversion T; subst.
  - constructor.
  - constructor; [eapply G; [eassumption| |assumption]|apply IH; [|assumption]]; [intros t d; apply K; now left|intros g t d I; apply K; now right].
  - constructor; [eapply G; [eassumption| |assumption]|assumption]. intros t d. apply K. now left.
Qed.
End Typed.
