(** Reading relations: user commands. *)
From Verif Require Import Base BaseFacts Num NumFacts NumSpec Utf8 Utf8Facts SpecText SpecHash SpecNmdc SpecRead HtmlReadFacts NmdcText NmdcTextFacts.
From Verif Require Import NmdcChat NmdcHub NmdcFiles NmdcUser NmdcMessage NmdcChatFacts NmdcReadFacts NmdcReadChat.

(** ** White space around a text *)

Lemma decode_last_white s w : white w -> decode_last_rune (s ++ utf8_of w) = (w, length (utf8_of w)).
Proof.
  intros W. unfold decode_last_rune. rewrite rev_app_distr.
  assert (A : forall n, n = length (utf8_of w) -> (let k := Nat.min (length (s ++ utf8_of w)) n in
     let (x, size) := decode_rune (skipn (length (s ++ utf8_of w) - k) (s ++ utf8_of w)) in if (size =? k)%nat then (x, size) else (rune_error, 1)) = (w, length (utf8_of w))).
  { intros n ->. cbv zeta. rewrite app_length. replace (Nat.min (length s + length (utf8_of w)) (length (utf8_of w))) with (length (utf8_of w)) by lia.
    replace (length s + length (utf8_of w) - length (utf8_of w)) with (length s) by lia. rewrite skipn_app_exact.
    rewrite <- (app_nil_r (utf8_of w)) at 1. rewrite decode_white by exact W. now rewrite Nat.eqb_refl. }
  remember (decode_rune) as D eqn:ED. clear ED.
  cbn in W. repeat (destruct W as [<-|W]; [first [reflexivity | apply (A _ eq_refl)]|]). destruct W.
Qed.

Lemma blank_nil : blank [].
Proof. exists []. split; [constructor|reflexivity]. Qed.
Lemma blank_app a b : blank a -> blank b -> blank (a ++ b).
Proof. intros (r & F & ->) (r' & F' & ->). exists (r ++ r'). split; [apply Forall_app; auto|now rewrite flat_map_app]. Qed.
Lemma blank_white w : white w -> blank (utf8_of w).
Proof. intros W. exists [w]. split; [auto|]. cbn. now rewrite app_nil_r. Qed.

Lemma trim_left_ok f : forall s, length s <= f -> exists a, blank a /\ s = a ++ trim_left_space f s /\ ~ starts_white (trim_left_space f s).
Proof.
  assert (NW : ~ starts_white []) by (intros (r & t & W & E); symmetry in E; apply app_eq_nil in E as [E _]; now apply white_not_nil in E).
  induction f as [|f IH]; intros [|c s] L; cbn [trim_left_space]; try (exists []; auto using blank_nil; fail); [cbn in L; lia|].
  destruct (decode_rune (c :: s)) as [r n] eqn:D. destruct (is_space_rune r) eqn:W.
  - destruct (decoded_white _ _ _ D W) as (Wr & -> & E). pose proof (white_not_nil r Wr) as Nr.
    destruct (IH (skipn (length (utf8_of r)) (c :: s))) as (a & Ba & Ea & Na).
    + rewrite skipn_length. destruct (utf8_of r); [contradiction|]. cbn in *. lia.
    + exists (utf8_of r ++ a). split; [apply blank_app; [now apply blank_white|exact Ba]|]. split; [|exact Na]. rewrite <- app_assoc, <- Ea. exact E.
  - exists []. split; [apply blank_nil|]. split; [reflexivity|]. intros X. apply starts_white_dec in X. rewrite D in X. cbn in X. congruence.
Qed.
Lemma trim_right_ok f : forall s, length s <= f -> exists b, blank b /\ s = trim_right_space f s ++ b /\ ~ ends_white (trim_right_space f s).
Proof.
  assert (NW : ~ ends_white []) by (intros (a & r & W & E); symmetry in E; apply app_eq_nil in E as [_ E]; now apply white_not_nil in E).
  induction f as [|f IH]; intros s L.
  - destruct s; [|cbn in L; lia]. cbn. exists []. auto using blank_nil.
  - cbn [trim_right_space]. destruct s as [|c s]; [exists []; auto using blank_nil|]. remember (c :: s) as d eqn:Ed. assert (Nd : d <> []) by (subst; discriminate). clear Ed c s.
    destruct (decode_last_rune d) as [r n] eqn:D. destruct (is_space_rune r) eqn:W.
    + destruct (decode_last_space _ _ _ D W) as (a & r' & Wr & ->). rewrite decode_last_white in D by exact Wr. injection D as <- <-.
      pose proof (white_not_nil r' Wr) as Nr. replace (length (a ++ utf8_of r') - length (utf8_of r')) with (length a) by (rewrite app_length; lia).
      rewrite firstn_app_exact. destruct (IH a) as (b & Bb & Eb & Nb).
      * rewrite app_length in L. destruct (utf8_of r'); [contradiction|]. cbn in L. lia.
      * exists (b ++ utf8_of r'). split; [apply blank_app; [exact Bb|now apply blank_white]|]. split; [|exact Nb]. rewrite app_assoc, <- Eb. reflexivity.
    + exists []. split; [apply blank_nil|]. split; [now rewrite app_nil_r|]. intros (a & r' & Wr & ->). rewrite decode_last_white in D by exact Wr. injection D as <- <-.
      apply white_space in Wr as [Wr _]. congruence.
Qed.

Lemma trim_left_run rs : forall f s, Forall white rs -> length (flat_map utf8_of rs ++ s) <= f -> ~ starts_white s -> trim_left_space f (flat_map utf8_of rs ++ s) = s.
Proof.
  induction rs as [|r rs IH]; intros f s F L N; cbn [flat_map app].
  - destruct f as [|f]; [reflexivity|]. cbn [trim_left_space]. destruct s as [|c s]; [reflexivity|]. destruct (decode_rune (c :: s)) as [x n] eqn:D.
    destruct (is_space_rune x) eqn:W; [|reflexivity]. exfalso. apply N, starts_white_dec. rewrite D. exact W.
  - inversion F as [|? ? W F']; subst. pose proof (white_not_nil r W) as Nr. cbn [flat_map] in L. rewrite <- app_assoc in *.
    destruct f as [|f]; [destruct (utf8_of r); [contradiction|cbn in L; lia]|].
    cbn [trim_left_space]. destruct (utf8_of r ++ flat_map utf8_of rs ++ s) as [|c y] eqn:E; [apply app_eq_nil in E as [E _]; contradiction|].
    rewrite <- E. rewrite decode_white by exact W. rewrite (proj1 (white_space r W)), skipn_app_exact. apply IH; [exact F'| |exact N].
    rewrite <- E, app_length in L. destruct (utf8_of r); [contradiction|]. cbn in L. lia.
Qed.
Lemma trim_right_run rs : forall f s, Forall white rs -> length (s ++ flat_map utf8_of rs) <= f -> ~ ends_white s -> trim_right_space f (s ++ flat_map utf8_of rs) = s.
Proof.
  induction rs as [|r rs IH] using rev_ind; intros f s F L N.
  - cbn [flat_map] in *. rewrite app_nil_r. now apply trim_right_space_id.
  - apply Forall_app in F as [F W]. apply Forall_inv in W. pose proof (white_not_nil r W) as Nr. rewrite flat_map_app in *. cbn [flat_map] in *. rewrite app_nil_r, app_assoc in *.
    destruct f as [|f]; [rewrite app_length in L; destruct (utf8_of r); [contradiction|cbn in L; lia]|].
    cbn [trim_right_space]. destruct ((s ++ flat_map utf8_of rs) ++ utf8_of r) as [|c y] eqn:E; [apply app_eq_nil in E as [_ E]; contradiction|].
    rewrite <- E. rewrite decode_last_white by exact W. rewrite (proj1 (white_space r W)).
    replace (length ((s ++ flat_map utf8_of rs) ++ utf8_of r) - length (utf8_of r)) with (length (s ++ flat_map utf8_of rs)) by (rewrite (app_length (_ ++ _)); lia).
    rewrite firstn_app_exact. apply IH; [exact F| |exact N]. rewrite <- E, app_length in L. destruct (utf8_of r); [contradiction|]. cbn in L. lia.
Qed.

(** The first byte of a white space character is not inside another one. *)
Lemma white_inside r p c q w x : white r -> white w -> utf8_of r = p ++ c :: q -> p <> [] -> utf8_of w = c :: x -> False.
Proof.
  intros R W E P Ew. assert (K : (128 <= b2n c <= 191)%N).
  { cbn in R. repeat (destruct R as [<-|R]; [destruct p as [|p1 [|p2 [|p3 p]]]; try contradiction; try (exfalso; apply (f_equal (@length byte)) in E; rewrite app_length in E; cbn in E; lia); vm_compute in E; inversion E; subst; split; vm_compute; discriminate|]). destruct R. }
  cbn in W. repeat (destruct W as [<-|W]; [vm_compute in Ew; injection Ew as <-; vm_compute in K; destruct K as [K1 K2]; try (now apply K1); now apply K2|]). destruct W.
Qed.
Lemma starts_white_app t b : t <> [] -> blank b -> starts_white (t ++ b) -> starts_white t.
Proof.
  intros N (rs & F & ->) (r & x & W & E). destruct (le_lt_dec (length (utf8_of r)) (length t)) as [L|L].
  - symmetry in E. apply prefix_split in E as (t' & -> & _); [|exact L]. exists r, t'. auto.
  - exfalso. apply prefix_split in E as (t' & Er & Eb); [|lia]. destruct t' as [|c q]; [rewrite app_nil_r in Er; rewrite Er in L; lia|].
    destruct F as [|w rs Ww F]; [discriminate|]. cbn [flat_map] in Eb. destruct (utf8_of w) as [|c' y] eqn:Ew; [now apply white_not_nil in Ew|].
    injection Eb as -> _. eapply white_inside; [exact W|exact Ww|exact Er|exact N|exact Ew].
Qed.

Lemma trimmed_iff s t : trimmed s t <-> t = trim_white s.
Proof.
  split.
  - intros (a & b & -> & Ba & Bb & N1 & N2). unfold trim_white. destruct t as [|c t].
    + cbn [app]. destruct (blank_app a b Ba Bb) as (rs & F & E). rewrite E. assert (K := trim_left_run rs (length (flat_map utf8_of rs ++ [])) [] F ltac:(lia) N1).
      rewrite app_nil_r in K. rewrite K. reflexivity.
    + destruct Ba as (ra & Fa & ->). assert (Bb' := Bb). destruct Bb as (rb & Fb & Eb).
      rewrite trim_left_run; [|exact Fa|lia|intros X; apply N1; apply (starts_white_app (c :: t) b); [discriminate|exact Bb'|exact X]].
      subst b. symmetry. now apply trim_right_run.
  - intros ->. unfold trim_white. destruct (trim_left_ok (length s) s ltac:(lia)) as (a & Ba & Ea & Na). set (s' := trim_left_space (length s) s) in *.
    destruct (trim_right_ok (length s') s' ltac:(lia)) as (b & Bb & Eb & Nb). set (t := trim_right_space (length s') s') in *.
    exists a, b. split; [rewrite <- Eb; exact Ea|]. split; [exact Ba|]. split; [exact Bb|]. split; [|exact Nb].
    intros (r & x & W & Et). apply Na. rewrite Eb, Et, <- app_assoc. exists r, (x ++ b). auto.
Qed.

(** ** Numbers and paths *)

Lemma digit_iff c : is_digit_char c = true <-> digit_char c.
Proof.
  unfold is_digit_char, digit_char. destruct c; vm_compute; intuition (try discriminate; try congruence).
Qed.
Lemma leading_iff s z : leading s z <-> int_read (take_digits s) z.
Proof.
  assert (T : forall s, exists x, s = take_digits s ++ x /\ Forall digit_char (take_digits s) /\ match x with [] => True | c :: _ => ~ digit_char c end).
  { clear. induction s as [|c s (x & E & F & X)]; cbn [take_digits]; [exists []; repeat constructor|]. destruct (is_digit_char c) eqn:D.
    - exists x. cbn. rewrite <- E. split; [reflexivity|]. split; [constructor; [now apply digit_iff|exact F]|exact X].
    - exists (c :: s). split; [reflexivity|]. split; [constructor|]. rewrite <- digit_iff. congruence. }
  split.
  - intros (d & x & -> & F & X & I). replace (take_digits (d ++ x)) with d; [exact I|].
    symmetry. clear I. induction F as [|c d C F IH]; cbn [app take_digits].
    + destruct x as [|c x]; [reflexivity|]. cbn. destruct (is_digit_char c) eqn:D; [|reflexivity]. apply digit_iff in D. contradiction.
    + apply digit_iff in C. now rewrite C, IH.
  - intros I. destruct (T s) as (x & E & F & X). exists (take_digits s), x. auto.
Qed.
Lemma unmarshal_path_ok dec l : forall acc p, unmarshal_path dec l acc = (p, Ok tt) <-> exists r, p = acc ++ r /\ Forall2 (str_read dec) (filled l) r.
Proof.
  induction l as [|x l IH]; intros acc p; cbn [unmarshal_path filled filter].
  - split; [intros [= <-]; exists []; rewrite app_nil_r; auto|]. intros (r & -> & F). inversion F; subst. now rewrite app_nil_r.
  - destruct x as [|c x]; [apply IH|]. fold (filled l). destruct (string_unmarshal dec (c :: x)) as [s|e|] eqn:E.
    + rewrite IH. split.
      * intros (r & -> & F). exists (s :: r). rewrite <- app_assoc. split; [reflexivity|]. constructor; [now apply str_iff|exact F].
      * intros (r & -> & F). inversion F as [|? y ? r' Hy F']; subst. apply str_iff in Hy. rewrite E in Hy. injection Hy as <-. exists r'. rewrite <- app_assoc. auto.
    + split; [discriminate|]. intros (r & -> & F). inversion F as [|? y ? r' Hy F']; subst. apply str_iff in Hy. congruence.
    + split; [discriminate|]. intros (r & -> & F). inversion F as [|? y ? r' Hy F']; subst. apply str_iff in Hy. congruence.
Qed.
Lemma trim_right_sp s : exists k, s = trim_right_by is_sp s ++ repeat " "%byte k /\ ~ ends_in " " (trim_right_by is_sp s).
Proof.
  unfold trim_right_by. assert (K : forall r, exists k, r = repeat " "%byte k ++ drop_while is_sp r /\ match drop_while is_sp r with c :: _ => c <> " "%byte | [] => True end).
  { induction r as [|c r (k & E & N)]; cbn [drop_while]; [exists 0; auto|]. unfold is_sp at 1 3. destruct (beq_spec c " ") as [->|Nc].
    - exists (S k). cbn. rewrite <- E. auto.
    - exists 0. auto. }
  destruct (K (rev s)) as (k & E & N). exists k. split.
  - rewrite <- (rev_involutive s), E at 1. rewrite rev_app_distr. f_equal. clear. induction k as [|k IH]; [reflexivity|]. cbn [repeat rev]. rewrite IH. clear.
    induction k; [reflexivity|]. cbn. now f_equal.
  - intros [a Ea]. apply (f_equal (@rev byte)) in Ea. rewrite rev_involutive, rev_app_distr in Ea. rewrite Ea in N. now apply N.
Qed.
Lemma trim_right_sp_iff p k : ~ ends_in " " p -> trim_right_by is_sp (p ++ repeat " "%byte k) = p.
Proof.
  intros N. destruct (trim_right_sp (p ++ repeat " "%byte k)) as (k' & E & N'). set (q := trim_right_by is_sp _) in *. clearbody q.
  revert k' E. induction k as [|k IH]; intros k' E.
  - destruct k' as [|k']; [cbn in E; rewrite !app_nil_r in E; auto|]. exfalso. apply N. exists (q ++ repeat " "%byte k'). rewrite app_nil_r in E. rewrite E.
    replace (S k') with (k' + 1) by lia. rewrite repeat_app. now rewrite app_assoc.
  - destruct k' as [|k'].
    + exfalso. apply N'. exists (p ++ repeat " "%byte k). rewrite app_nil_r in E. rewrite <- E. replace (S k) with (k + 1) by lia. rewrite repeat_app. now rewrite app_assoc.
    + apply (IH k'). replace (S k) with (k + 1) in E by lia. replace (S k') with (k' + 1) in E by lia. rewrite !repeat_app, !app_assoc in E. now apply app_inj_tail in E.
Qed.

Lemma ucmd_reads dec data m : ucmd_unmarshal dec ucmd0 data = (m, Ok tt) <-> ucmd_read dec data m.
Proof.
  split.
  - intros H. unfold ucmd_unmarshal in H. assert (Tr := proj2 (trimmed_iff data _) eq_refl). set (core := trim_white data) in *. clearbody core.
    cbn [splitn_byte] in H. destruct (cut " " core) as [[a r]|] eqn:C1; [|discriminate]. apply first_cut in C1.
    destruct (cut " " r) as [[b v]|] eqn:C2.
    + apply first_cut in C2. head_step H. head_step H. cbv zeta in H. destruct (cut "$" v) as [[p c]|] eqn:C3; [|discriminate]. destruct p as [|p0 p]; [discriminate|].
      apply first_cut in C3. cbv zeta in H. destruct (unmarshal_path dec _ []) as [path res] eqn:U. destruct res as [[]|e|]; try discriminate. head_step H. injection H as <-.
      apply unmarshal_path_ok in U as (r' & -> & F). destruct (trim_right_sp (p0 :: p)) as (k & Ek & Nk). eapply (ur_full dec data core a r b v _ c k).
      * exact Tr. * exact C1. * exact C2. * assumption. * now apply leading_iff. * rewrite <- Ek. exact C3. * rewrite <- Ek. discriminate. * exact Nk. * apply split_on_byte. reflexivity. * exact F. * assumption.
    + apply cut_none in C2. head_step H. head_step H. injection H as <-. eapply ur_bare; [exact Tr|exact C1|exact C2|assumption|now apply leading_iff].
  - intros H. unfold ucmd_unmarshal. destruct H as [data core a b typ ctx Tr C1 Nb I L|data core a r b v p c k ps typ ctx path cmd Tr C1 C2 I L C3 Np Ns Sp F Sc].
    + apply trimmed_iff in Tr. rewrite <- Tr. cbn [splitn_byte]. apply cut_none in Nb. rewrite (proj2 (first_cut " " _ _ _) C1), Nb. apply leading_iff in L. repeat back_step. reflexivity.
    + apply trimmed_iff in Tr. rewrite <- Tr. cbn [splitn_byte]. rewrite (proj2 (first_cut " " _ _ _) C1), (proj2 (first_cut " " _ _ _) C2). apply leading_iff in L. repeat back_step.
      destruct (p ++ repeat " "%byte k) as [|p0 q] eqn:Eq; [contradiction|]. rewrite <- Eq, trim_right_sp_iff by exact Ns. assert (Sp2 := proj1 (split_on_byte "\" p ps) Sp). rewrite <- Sp2.
      assert (U : unmarshal_path dec ps [] = (path, Ok tt)) by (apply unmarshal_path_ok; exists path; auto). rewrite U. cbv iota beta. repeat back_step. reflexivity.
Qed.
