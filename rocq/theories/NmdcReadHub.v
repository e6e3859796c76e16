(** Reading relations: hub messages and lists. *)
From Verif Require Import Base BaseFacts Num NumFacts NumSpec Utf8 Utf8Facts SpecText SpecHash SpecNmdc SpecRead HtmlReadFacts NmdcText NmdcTextFacts.
From Verif Require Import NmdcChat NmdcHub NmdcFiles NmdcUser NmdcMessage NmdcChatFacts NmdcReadFacts NmdcReadChat NmdcReadCmd.

Lemma name_msg_reads dec data m : name_msg_unmarshal dec [] data = (m, Ok tt) <-> name_read dec data m.
Proof.
  split.
  - intros H. unfold name_msg_unmarshal in H. head_step H. injection H as <-. exact E.
  - intros H. unfold name_msg_unmarshal. repeat back_step. reflexivity.
Qed.
Lemma string_msg_reads dec data m : string_msg_unmarshal dec [] data = (m, Ok tt) <-> str_read dec data m.
Proof.
  split.
  - intros H. unfold string_msg_unmarshal in H. head_step H. injection H as <-. exact E.
  - intros H. unfold string_msg_unmarshal. repeat back_step. reflexivity.
Qed.
Lemma err_reads dec data m : err_unmarshal dec None data = (m, Ok tt) <-> err_read dec data m.
Proof.
  split.
  - intros H. unfold err_unmarshal in H. head_step H. injection H as <-. destruct a as [|c s]; [left; auto|right; exists (c :: s)]. split; [discriminate|auto].
  - intros [[H ->]|(s & N & H & ->)]; unfold err_unmarshal; repeat back_step; [reflexivity|]. destruct s; [contradiction|reflexivity].
Qed.

Lemma filled_drop c : forall s, filled (split_byte c (drop_while (fun x => beq x c) s)) = filled (split_byte c s).
Proof.
  induction s as [|x s IH]; [reflexivity|]. cbn [drop_while]. destruct (beq_spec x c) as [->|_]; [|reflexivity]. rewrite IH. change (c :: s) with ([] ++ c :: s). rewrite split_byte_app by intros []. reflexivity.
Qed.
Lemma split_byte_last c s : split_byte c (s ++ [c]) = split_byte c s ++ [[]].
Proof.
  induction s as [|x s IH]; [cbn; now rewrite beq_refl|]. cbn [app split_byte]. rewrite IH. destruct (beq x c); [reflexivity|].
  destruct (split_byte c s) as [|y l] eqn:E; [now apply split_byte_not_nil in E|]. reflexivity.
Qed.
Lemma filled_trim s : filled (split_byte " " (trim_by is_sp s)) = filled (split_byte " " s).
Proof.
  unfold trim_by. set (d := drop_while is_sp s). rewrite <- (filled_drop " " s). change (drop_while (fun x => beq x " ") s) with d. destruct (trim_right_sp d) as (k & E & _). rewrite E at 2.
  generalize (trim_right_by is_sp d). intros t. clear. symmetry. induction k as [|k IH]; [now rewrite app_nil_r|].
  replace (repeat " "%byte (S k)) with (repeat " "%byte k ++ [" "%byte]) by (clear; induction k as [|k IH]; [reflexivity|cbn; f_equal; exact IH]).
  rewrite app_assoc, split_byte_last. unfold filled in *. rewrite filter_app, IH. cbn. apply app_nil_r.
Qed.
Lemma supports_reads data l : supports_unmarshal data = l <-> supports_read data l.
Proof.
  unfold supports_unmarshal, supports_read. change (filter _ (split_byte " " (trim_by is_sp data))) with (filled (split_byte " " (trim_by is_sp data))). rewrite filled_trim. split.
  - intros <-. exists (split_byte " " data). split; [now apply (split_on_byte " ")|reflexivity].
  - intros (ps & Sp & ->). apply (split_on_byte " ") in Sp as ->. reflexivity.
Qed.
Lemma failover_reads data l : failover_unmarshal data = l <-> failover_read data l.
Proof. unfold failover_unmarshal, failover_read. rewrite (split_on_byte ","). split; congruence. Qed.

Lemma lock_reads data m : lock_unmarshal data = m <-> lock_read data m.
Proof.
  assert (K : forall noext body, (match cut " " body with
      | None => mk_lock noext body [] []
      | Some (l, d) => match cut_seq (B "Ref=") (trim_prefix (B "Pk=") d) with Some (pk, ref) => mk_lock noext l pk ref | None => mk_lock noext l (trim_prefix (B "Pk=") d) [] end end) = m <->
     exists l pk ref, (~ In " "%byte body /\ l = body /\ pk = [] /\ ref = [] \/
     exists r r', first (B " ") body l r /\ without_prefix (B "Pk=") r r' /\
       (first (B "Ref=") r' pk ref \/ ~ substring (B "Ref=") r' /\ pk = r' /\ ref = [])) /\ m = mk_lock noext l pk ref).
  { intros noext body. split.
    - destruct (cut " " body) as [[l d]|] eqn:C.
      + apply first_cut in C. destruct (cut_seq (B "Ref=") _) as [[pk ref]|] eqn:C2; intros <-.
        * apply first_cut_seq in C2. exists l, pk, ref. split; [|reflexivity]. right. exists d, (trim_prefix (B "Pk=") d). split; [exact C|]. split; [now apply without_prefix_iff|auto].
        * apply not_substring_cut in C2. exists l, (trim_prefix (B "Pk=") d), []. split; [|reflexivity]. right. exists d, (trim_prefix (B "Pk=") d). split; [exact C|]. split; [now apply without_prefix_iff|auto].
      + apply cut_none in C. intros <-. exists body, [], []. split; [|reflexivity]. left. auto.
    - intros (l & pk & ref & [(N & -> & -> & ->)|(r & r' & F & W & R)] & ->).
      + apply cut_none in N. now rewrite N.
      + repeat back_step. apply without_prefix_iff in W as <-. destruct R as [R|(N & -> & ->)]; [repeat back_step; reflexivity|]. apply not_substring_cut in N. now rewrite N. }
  unfold lock_unmarshal. change ext_lock_pref with (B "EXTENDEDPROTOCOL"). destruct (has_prefix (B "EXTENDEDPROTOCOL") data) eqn:P.
  - apply has_prefix_spec in P as [body ->]. rewrite skipn_app_exact. cbv iota beta. rewrite K. split.
    + intros (l & pk & ref & H & ->). apply lkr with body; [left; auto|exact H].
    + intros H. inversion H as [noext d body' l pk ref D R E1 E2]. subst. destruct D as [[-> D]|(_ & N & _)].
      * apply app_inv_head in D as <-. eauto 10.
      * exfalso. apply N. now exists body.
  - rewrite K. split.
    + intros (l & pk & ref & H & ->). apply lkr with data; [right|exact H]. split; [reflexivity|]. split; [|reflexivity]. intros [x ->]. rewrite has_prefix_app in P. discriminate.
    + intros H. inversion H as [noext d body' l pk ref D R E1 E2]. subst. destruct D as [[-> D]|(-> & N & ->)].
      * rewrite D, has_prefix_app in P. discriminate.
      * eauto 10.
Qed.

(** ** Lists of names *)

Lemma names_sub_iff dec l : forall r, names_sub dec l = Ok r <-> Forall2 (name_read dec) l r.
Proof.
  induction l as [|b l IH]; intros r; cbn [names_sub].
  - split; [intros [= <-]; constructor|]. intros H. inversion H. reflexivity.
  - split.
    + intros H. apply bind_ok in H as (n & Hn & H). apply bind_ok in H as (t & Ht & H). injection H as <-. constructor; [now apply name_iff|now apply IH].
    + intros H. inversion H as [|? n ? t Hn Ht]; subst. apply name_iff in Hn. apply IH in Ht. rewrite Hn. cbn. rewrite Ht. reflexivity.
Qed.
Lemma names_reads dec data l : names_unmarshal dec [] data = (l, Ok tt) <-> names_read dec data l.
Proof.
  unfold names_unmarshal, names_read. split.
  - intros H. exists (trim_suffix (B "$$") data). split; [now apply without_suffix_iff|]. destruct (trim_suffix (B "$$") data) as [|c d]; [injection H as <-; auto|]. right. split; [discriminate|].
    destruct (names_sub dec _) as [r|e|] eqn:E; try discriminate. injection H as <-. apply names_sub_iff in E. exists (split_seq (B "$$") (c :: d)). split; [now apply split_on_seq|exact E].
  - intros (d & W & H). apply without_suffix_iff in W; [|discriminate]. rewrite <- W. destruct H as [[-> ->]|(N & ps & Sp & F)]; [reflexivity|]. destruct d as [|c d]; [contradiction|].
    apply split_on_seq in Sp; [|discriminate]. rewrite <- Sp. apply names_sub_iff in F. rewrite F. reflexivity.
Qed.
Lemma userip_sub_iff dec l : forall acc r, userip_sub dec l acc = (r, Ok tt) <-> exists t, r = acc ++ t /\ Forall2 (userip_entry dec) l t.
Proof.
  induction l as [|s l IH]; intros acc r; cbn [userip_sub].
  - split; [intros [= <-]; exists []; rewrite app_nil_r; auto|]. intros (t & -> & H). inversion H. now rewrite app_nil_r.
  - assert (K : forall n ip, (match last_cut " " s with Some (n, ip) => (n, ip) | None => (s, []) end) = (n, ip) <-> s = n ++ B " " ++ ip /\ ~ In " "%byte ip \/ ~ In " "%byte s /\ n = s /\ ip = []).
    { intros n ip. destruct (last_cut " " s) as [[n' ip']|] eqn:C.
      - split; [intros [= <- <-]; apply last_cut_spec in C; left; exact C|]. intros [H|(N & _)]; [apply last_cut_spec in H; rewrite H in C; now injection C as <- <-|].
        exfalso. apply last_cut_spec in C as [-> _]. apply N. apply in_app_iff. right. now left.
      - apply last_cut_none in C. split; [intros [= <- <-]; auto|]. intros [[-> _]|(_ & -> & ->)]; [|reflexivity]. exfalso. apply C. apply in_app_iff. right. now left. }
    destruct (match last_cut " " s with Some (n, ip) => (n, ip) | None => (s, []) end) as [n ip]. specialize (K n ip). apply proj1 in K as K1. specialize (K1 eq_refl). split.
    + intros H. head_step H. apply IH in H as (t & -> & F). exists ((a, ip) :: t). split; [now rewrite <- app_assoc|]. constructor; [|exact F].
      destruct K1 as [[-> N]|(N & -> & ->)]; [left; exists n; auto|right; auto].
    + intros (t & -> & F). inversion F as [|? [name ip'] ? t' En Ft]; subst.
      assert (G : name_read dec n name /\ ip' = ip).
      { destruct En as [(n' & E & N' & Hn)|(N' & E & Hn)]; cbn [fst snd] in *.
        - destruct K1 as [[E' N]|(N & -> & ->)].
          + assert (X : last_cut " " s = Some (n', ip')) by now apply last_cut_spec. assert (Y : last_cut " " s = Some (n, ip)) by now apply last_cut_spec. rewrite X in Y. injection Y as -> ->. auto.
          + exfalso. apply N. rewrite E. apply in_app_iff. right. now left.
        - destruct K1 as [[E' N]|(N & -> & ->)]; [|auto]. exfalso. apply N'. rewrite E'. apply in_app_iff. right. now left. }
      destruct G as [Hn ->]. repeat back_step. apply IH. exists t'. split; [now rewrite <- app_assoc|exact Ft].
Qed.
Lemma userip_reads dec data l : userip_unmarshal dec data = (l, Ok tt) <-> userip_read dec data l.
Proof.
  unfold userip_unmarshal, userip_read. rewrite userip_sub_iff. split.
  - intros (t & -> & F). exists (trim_suffix [x0d] data), (trim_suffix (B "$$") (trim_suffix [x0d] data)), (split_seq (B "$$") (trim_suffix (B "$$") (trim_suffix [x0d] data))).
    split; [now apply without_suffix_iff|]. split; [now apply without_suffix_iff|]. split; [now apply split_on_seq|exact F].
  - intros (d1 & d2 & ps & W1 & W2 & Sp & F). apply without_suffix_iff in W1; [|discriminate]. apply without_suffix_iff in W2; [|discriminate]. apply split_on_seq in Sp; [|discriminate].
    rewrite <- W1, <- W2, <- Sp. exists l. auto.
Qed.

(** ** Hub information *)

Lemma split_max_iff c n : forall s l, split_max c (S n) s l <-> l = splitn_byte (S n) c s.
Proof.
  unfold split_max. intros s l. split.
  - intros (a & b & El & Es & F & L & N). subst l. revert n s Es L N. induction F as [|x a Hx F IH]; intros n s Es L N.
    + cbn in Es. subst s. destruct n as [|n]; [reflexivity|]. change (splitn_byte (S (S n)) c b) with (match cut c b with None => [b] | Some (a, r) => a :: splitn_byte (S n) c r end).
      assert (X : cut c b = None) by (apply cut_none, N; cbn; lia). now rewrite X.
    + cbn [app] in *. assert (Es' : s = x ++ c :: sep_by [c] (a ++ [b])) by (destruct a; exact Es). destruct n as [|n]; [cbn [length] in L; rewrite app_length in L; cbn in L; lia|].
      change (splitn_byte (S (S n)) c s) with (match cut c s with None => [s] | Some (a, r) => a :: splitn_byte (S n) c r end).
      rewrite Es', cut_app by exact Hx. f_equal. apply IH; [reflexivity| |]; [cbn in L; lia|]. intros X. apply N. cbn. lia.
  - intros ->. revert s. induction n as [|n IH]; intros s.
    + exists [], s. split; [reflexivity|]. split; [reflexivity|]. split; [constructor|]. cbn. split; lia.
    + change (splitn_byte (S (S n)) c s) with (match cut c s with None => [s] | Some (a, r) => a :: splitn_byte (S n) c r end). destruct (cut c s) as [[x r]|] eqn:C.
      * apply cut_spec in C as [-> Nx]. destruct (IH r) as (a & b & El & Er & F & L & N). exists (x :: a), b. split; [now rewrite El|].
        split; [rewrite Er at 1; destruct (splitn_byte (S n) c r) eqn:E0; [destruct a; discriminate|reflexivity]|]. split; [now constructor|]. cbn [length]. split; [lia|]. intros X. apply N. lia.
      * apply cut_none in C. exists [], s. repeat split; [constructor|cbn; lia|]. intros _. exact C.
Qed.

Lemma hubinfo_step dec n i m f r m' : hubinfo_fields dec n i m (f :: r) = (m', Ok tt) <->
  exists m1, hubinfo_field dec n i m f = (m1, Ok tt) /\ hubinfo_fields dec n (S i) m1 r = (m', Ok tt).
Proof.
  cbn [hubinfo_fields]. destruct (hubinfo_field dec n i m f) as [m1 [[]|e|]]; split.
  - eauto.
  - intros (x & [= <-] & H). exact H.
  - discriminate.
  - intros (x & [=] & H).
  - discriminate.
  - intros (x & [=] & H).
Qed.
Lemma hubinfo_late dec n fs : forall i m, 11 <= i -> hubinfo_fields dec n i m fs = (m, Ok tt).
Proof.
  induction fs as [|f fs IH]; intros i m L; [reflexivity|]. apply hubinfo_step. exists m. split; [|apply IH; lia]. do 11 (destruct i as [|i]; [lia|]). reflexivity.
Qed.

Lemma software_iff f s v : software f (s, v) <-> last_cut " " f = Some (s, v) \/ last_cut " " f = None /\ (s, v) = (f, []).
Proof.
  unfold software. cbn [fst snd]. rewrite (last_cut_spec " " f s v), last_cut_none. reflexivity.
Qed.
Definition field_values dec (n i : nat) (m : hubinfo) (f : bytes) (m1 : hubinfo) : Prop :=
  match i with
  | 0 => exists s, str_read dec f s /\ m1 = set_hi_name m s
  | 1 => m1 = set_hi_host m f
  | 2 => exists s, str_read dec f s /\ m1 = set_hi_desc m s
  | 3 => exists z, int_read f z /\ m1 = set_hi_i1 m z
  | 4 => exists z, int_read f z /\ m1 = set_hi_i2 m z
  | 5 => exists z, int_read f z /\ m1 = set_hi_i3 m z
  | 6 => exists z, int_read f z /\ m1 = set_hi_i4 m z
  | 7 => exists s v, software f (s, v) /\ m1 = set_hi_vers (set_hi_soft m s) v
  | 8 => exists s, str_read dec f s /\ m1 = set_hi_owner m s
  | 9 => exists s, str_read dec f s /\ m1 = set_hi_state m s
  | 10 => m1 = if n <? 12 then set_hi_encoding m f else m
  | _ => m1 = m
  end.
Lemma hubinfo_field_iff dec n i m f m1 : hi_vers m = [] -> (hubinfo_field dec n i m f = (m1, Ok tt) <-> field_values dec n i m f m1).
Proof.
  intros V0. destruct i as [|[|[|[|[|[|[|[|[|[|[|i]]]]]]]]]]]; unfold field_values; cbn [hubinfo_field];
    try (split; [intros H; head_step H; injection H as <-; eauto|intros (x & H & ->); repeat back_step; reflexivity]);
    try (split; [intros [= <-]; reflexivity|intros ->; reflexivity]).
  split.
  - destruct (last_cut " " f) as [[s v]|] eqn:C; intros [= <-].
    + exists s, v. split; [apply software_iff; auto|reflexivity].
    + exists f, []. split; [apply software_iff; auto|]. unfold set_hi_vers, set_hi_soft. cbn. now rewrite V0.
  - intros (s & v & H & ->). apply software_iff in H as [H|[H [= -> ->]]]; rewrite H; [reflexivity|]. unfold set_hi_vers, set_hi_soft. cbn. now rewrite V0.
Qed.
Ltac none H7 := cbn in *; subst; cbn in *; subst; try (injection H7 as -> ->); reflexivity.
Lemma hubinfo_reads dec data m : hubinfo_unmarshal dec hubinfo0 data = (m, Ok tt) <-> hubinfo_read dec data m.
Proof.
  unfold hubinfo_unmarshal. split.
  - intros H. cbv zeta in H. pose proof (proj2 (split_max_iff "$" 12 data _) eq_refl) as SM. set (fs := splitn_byte 13 "$" data) in *. clearbody fs. unfold hubinfo0 in H.
    do 7 (destruct fs as [|? fs]; [injection H as <-; eapply hir; [exact SM|unfold field; cbn; first [reflexivity|eassumption]..]|];
      apply hubinfo_step in H as (? & F & H); apply hubinfo_field_iff in F; [|reflexivity]; unfold field_values in F; first [destruct F as (? & ? & ->)|subst]).
    do 1 (destruct fs as [|? fs]; [injection H as <-; eapply hir; [exact SM|unfold field; cbn; first [reflexivity|eassumption]..]|];
      apply hubinfo_step in H as (? & F & H); apply hubinfo_field_iff in F; [|reflexivity]; unfold field_values in F; destruct F as (? & ? & ? & ->)).
    do 2 (destruct fs as [|? fs]; [injection H as <-; eapply hir; [exact SM|unfold field; cbn; first [reflexivity|eassumption]..]|];
      apply hubinfo_step in H as (? & F & H); cbn [hubinfo_field] in F; head_step F; injection F as <-).
    destruct fs as [|f fs]; [injection H as <-; eapply hir; [exact SM|unfold field; cbn; first [reflexivity|eassumption]..]|].
    apply hubinfo_step in H as (? & F & H). cbn [hubinfo_field] in F. injection F as <-. rewrite hubinfo_late in H by lia. injection H as <-.
    destruct fs as [|f' fs]; cbn [length Nat.ltb Nat.leb]; (eapply hir; [exact SM|unfold field; cbn; first [reflexivity|eassumption]..]).
  - intros [data' fs name host desc i1 i2 i3 i4 soft vers owner state encoding SM H0 H1 H2 H3 H4 H5 H6 H7 H8 H9 H10].
    apply (split_max_iff "$" 12) in SM. rewrite <- SM. clear SM. cbv zeta.
    unfold field in *. set (n := length fs) in *. assert (En : n = length fs) by reflexivity. clearbody n.
    destruct fs as [|f0 fs]; [none H7|]. apply hubinfo_step. eexists. split; [apply hubinfo_field_iff; [reflexivity|]; eexists; split; [exact H0|reflexivity]|]. cbn [nth_error] in *.
    destruct fs as [|f1 fs]; [none H7|]. apply hubinfo_step. eexists. split; [apply hubinfo_field_iff; [reflexivity|]; reflexivity|]. cbn [nth_error] in *.
    destruct fs as [|f2 fs]; [none H7|]. apply hubinfo_step. eexists. split; [apply hubinfo_field_iff; [reflexivity|]; eexists; split; [exact H2|reflexivity]|]. cbn [nth_error] in *.
    destruct fs as [|f3 fs]; [none H7|]. apply hubinfo_step. eexists. split; [apply hubinfo_field_iff; [reflexivity|]; eexists; split; [exact H3|reflexivity]|]. cbn [nth_error] in *.
    destruct fs as [|f4 fs]; [none H7|]. apply hubinfo_step. eexists. split; [apply hubinfo_field_iff; [reflexivity|]; eexists; split; [exact H4|reflexivity]|]. cbn [nth_error] in *.
    destruct fs as [|f5 fs]; [none H7|]. apply hubinfo_step. eexists. split; [apply hubinfo_field_iff; [reflexivity|]; eexists; split; [exact H5|reflexivity]|]. cbn [nth_error] in *.
    destruct fs as [|f6 fs]; [none H7|]. apply hubinfo_step. eexists. split; [apply hubinfo_field_iff; [reflexivity|]; eexists; split; [exact H6|reflexivity]|]. cbn [nth_error] in *.
    destruct fs as [|f7 fs]; [none H7|]. apply hubinfo_step. eexists. split; [apply hubinfo_field_iff; [reflexivity|]; do 2 eexists; split; [exact H7|reflexivity]|]. cbn [nth_error] in *.
    destruct fs as [|f8 fs]; [none H7|]. apply hubinfo_step. eexists. split; [cbn [hubinfo_field]; repeat back_step; reflexivity|]. cbn [nth_error] in *.
    destruct fs as [|f9 fs]; [none H7|]. apply hubinfo_step. eexists. split; [cbn [hubinfo_field]; repeat back_step; reflexivity|]. cbn [nth_error] in *.
    destruct fs as [|f10 fs]; [none H7|]. apply hubinfo_step. eexists. split; [cbn [hubinfo_field]; reflexivity|]. cbn [nth_error] in *.
    rewrite hubinfo_late by lia. subst host. destruct (n <? 12); subst encoding; reflexivity.
Qed.
