(** Chat messages, user commands and connection requests: encoding and decoding. *)
From Verif Require Import Base BaseFacts Num NumFacts Utf8 Utf8Facts NmdcText NmdcTextFacts SpecText SpecNmdc NmdcMsgFacts NmdcChat.

Lemma name_both enc dec s w : name_text enc dec s w ->
  name_marshal enc s = Ok (esc_name w) /\ name_unmarshal dec (esc_name w) = Ok s /\ flat_map entity_name w = esc_name w.
Proof. intros H. pose proof (name_roundtrip _ _ _ _ H) as [H1 H2]. repeat split; auto. eapply name_en. exact H. Qed.
Lemma string_both enc dec s w : string_text enc dec s w ->
  string_marshal enc s = Ok (esc_string w) /\ string_unmarshal dec (esc_string w) = Ok s /\ flat_map entity_string w = esc_string w.
Proof. intros H. pose proof (string_roundtrip _ _ _ _ H) as [H1 H2]. repeat split; auto. apply es_eq. Qed.
(** Replace every text hypothesis by its consequences for the codec. *)
Ltac texts :=
  repeat match goal with
  | H : name_text _ _ _ _ |- _ =>
      let M := fresh "M" in let U := fresh "U" in let E := fresh "E" in
      apply name_both in H; destruct H as (M & U & E); rewrite ?E; clear E
  | H : string_text _ _ _ _ |- _ =>
      let M := fresh "M" in let U := fresh "U" in let E := fresh "E" in
      apply string_both in H; destruct H as (M & U & E); rewrite ?E; clear E
  end.
Ltac steps := repeat match goal with
  | H : ?x = Ok _ |- context [?x] => rewrite H
  end; cbn [bind].

(** ** Chat *)

Lemma index_stop_app a s : (forall c, In c a -> stop_char c = false) -> index_stop (a ++ s) = option_map (fun i => length a + i) (index_stop s).
Proof.
  induction a as [|x a IH]; intros H; cbn [app index_stop length]; [destruct (index_stop s); reflexivity|].
  rewrite (H x) by (left; reflexivity). rewrite IH by (intros c Hc; apply H; right; exact Hc).
  destruct (index_stop s); reflexivity.
Qed.
Lemma name_no_stop enc s e : name_marshal enc s = Ok e -> forall c, In c e -> stop_char c = false.
Proof.
  intros H c Hc. apply name_marshal_safe in H. destruct H as (_ & _ & _ & H1 & _ & H2 & H3 & _).
  unfold stop_char. rewrite !(proj2 (beq_false _ _)); [reflexivity|intros ->; contradiction..].
Qed.
Lemma name_end_named fuel a s : (forall c, In c a -> stop_char c = false) -> fuel <> 0 ->
  name_end fuel (a ++ B "> " ++ s) 0 = Ok (length a, 2).
Proof.
  intros H Hf. destruct fuel as [|f]; [contradiction|]. cbn [name_end].
  replace (0 <? length (a ++ B "> " ++ s))%nat with true by (symmetry; apply Nat.ltb_lt; rewrite !app_length; cbn; lia).
  cbn [skipn]. rewrite index_stop_app by exact H. cbn [B String.list_byte_of_string app]. change (index_stop (B "> " ++ s)) with (Some 0). cbn [option_map].
  replace (0 + (length a + 0)) with (length a) by lia. rewrite app_nth2 by lia. rewrite Nat.sub_diag. cbn [nth B String.list_byte_of_string app].
  cbn. rewrite app_length. cbn.
  replace (length a =? length a + S (S (length s)) - 1)%nat with false by (symmetry; apply Nat.eqb_neq; lia).
  replace (length a + 1) with (length (a ++ B ">")) by (rewrite app_length; reflexivity).
  replace (a ++ ">"%byte :: " "%byte :: s) with ((a ++ B ">") ++ " "%byte :: s) by (rewrite <- app_assoc; reflexivity).
  rewrite skipn_app_exact. reflexivity.
Qed.

Lemma chat_encodes enc dec m p : chat_wire enc dec m p -> chat_marshal enc m = Ok p.
Proof.
  intros H. destruct H; unfold chat_marshal; cbn [ch_name ch_text]; texts.
  - destruct n as [|c n]; [contradiction|]. steps. rewrite <- app_assoc. f_equal. rewrite <- !app_assoc. reflexivity.
  - steps. reflexivity.
Qed.
Lemma esc_string_first c w : ~ In c esc_alphabet -> c <> "$"%byte -> c <> "|"%byte -> has_prefix [c] (esc_string w) = has_prefix [c] w.
Proof.
  intros Ha H1 H2. destruct w as [|x w]; [reflexivity|]. cbn [esc_string flat_map].
  assert (Hc : beq c "&" = false) by (apply beq_false; intros ->; apply Ha; left; reflexivity).
  destruct (esc_char_string_cases x) as [(-> & _)|[(-> & ->)|[(-> & ->)|(-> & ->)]]]; cbn; rewrite ?andb_true_r; [reflexivity|..].
  - rewrite Hc. reflexivity.
  - rewrite Hc. symmetry. apply beq_false. exact H1.
  - rewrite Hc. symmetry. apply beq_false. exact H2.
Qed.
Lemma chat_decodes enc dec m p m0 : chat_wire enc dec m p -> ch_name m <> [] \/ ch_name m0 = [] -> chat_unmarshal dec m0 p = (m, Ok tt).
Proof.
  intros H. destruct H; cbn [ch_name]; intros Hn; texts.
  - change (B "<" ++ esc_name wn ++ B "> " ++ esc_string wt) with ("<"%byte :: (esc_name wn ++ B "> " ++ esc_string wt)).
    unfold chat_unmarshal. cbn [beq Byte.eqb]. change (beq "<" "<") with true. cbv iota.
    rewrite name_end_named; [|eapply name_no_stop; eassumption|discriminate].
    rewrite firstn_app_exact.
    assert (L : length (esc_name wn) <= max_name).
    { unfold name_unmarshal in U. destruct (max_name <? length (esc_name wn))%nat eqn:E; [discriminate|]. apply Nat.ltb_ge in E. exact E. }
    apply Nat.ltb_ge in L. rewrite L. steps. unfold chat_text.
    replace (length (esc_name wn) + 2) with (length (esc_name wn ++ B "> ")) by (rewrite app_length; reflexivity).
    rewrite app_assoc, skipn_app_exact. steps. reflexivity.
  - assert (N0 : ch_name m0 = []) by (destruct Hn; [contradiction|assumption]).
    assert (P : has_prefix (B "<") (esc_string wt) = false).
    { change (B "<") with ["<"%byte]. rewrite esc_string_first by not_in. rewrite starts_with_prefix in H0. apply not_true_is_false. exact H0. }
    unfold chat_unmarshal. destruct m0 as [n0 t0]. cbn [ch_name] in N0. subst n0.
    destruct (esc_string wt) as [|c r].
    + unfold chat_text. steps. reflexivity.
    + change ((beq "<" c && true)%bool = false) in P. rewrite andb_true_r in P. rewrite (beq_sym c), P. unfold chat_text. steps. reflexivity.
Qed.

(** ** Private messages *)

Lemma esc_name_no c w : ~ In c esc_alphabet -> c <> "$"%byte -> c <> "|"%byte -> c <> "<"%byte -> c <> ">"%byte -> ~ In c w -> ~ In c (esc_name w).
Proof. intros H1 H2 H3 H4 H5 H K. apply H. apply (esc_name_in_iff c w); assumption. Qed.
Lemma esc_string_no c w : ~ In c esc_alphabet -> c <> "$"%byte -> c <> "|"%byte -> ~ In c w -> ~ In c (esc_string w).
Proof. intros H1 H2 H3 H K. apply H. apply (esc_string_in_iff c w); assumption. Qed.


(** " From: " begins at most at the end of a text without " From:". *)
Lemma cut_from a r : ~ occurs (B " From:") a -> cut_seq (B " From: ") (a ++ B " From: " ++ r) = Some (a, r).
Proof.
  intros H. apply cut_seq_before; [discriminate|]. intros x y -> Hy. apply not_true_is_false. intros P.
  apply has_prefix_spec in P. destruct P as [q P].
  assert (Hs : ~ has_prefix (B " From:") y = true).
  { intros K. apply has_prefix_spec in K. destruct K as [z ->]. apply H. exists x, z. reflexivity. }
  destruct y as [|c0 y]; [contradiction|]. cbn in P. injection P as -> P.
  repeat (destruct y as [|?c y]; [cbn in P; discriminate P|cbn in P; injection P as -> P]).
  apply Hs. reflexivity.
Qed.

Lemma pm_encodes enc dec m p : pm_wire enc dec m p -> pm_marshal enc m = Ok p.
Proof. intros H. destruct H. unfold pm_marshal. cbn [pm_to pm_from pm_name pm_text]. texts. steps. reflexivity. Qed.
Lemma pm_decodes enc dec m p m0 : pm_wire enc dec m p -> pm_unmarshal dec m0 p = (m, Ok tt).
Proof.
  intros H. destruct H. rewrite substring_occurs in H3. texts. unfold pm_unmarshal.
  rewrite cut_from; [|intros K; apply H3; apply (occurs_esc_name (B " From:") wt); [split; [right; left; reflexivity|]; intros c Hc; repeat (destruct Hc as [<-|Hc]; [not_in|]); destruct Hc|exact K]].
  steps.
  change (B " $<") with (B " " ++ "$"%byte :: B "<"). change (B " " ++ "$"%byte :: B "<") with (B " " ++ "$"%byte :: B "<").
  replace (esc_name wf ++ (B " " ++ "$"%byte :: B "<") ++ esc_name wn ++ B "> " ++ esc_string wx)
    with (esc_name wf ++ B " " ++ "$"%byte :: B "<" ++ (esc_name wn ++ B "> " ++ esc_string wx)) by reflexivity.
  rewrite cut_seq_mark; [|apply esc_name_no_dollar|not_in]. steps.
  change (B "> ") with ([] ++ ">"%byte :: B " ").
  change (esc_name wn ++ ([] ++ ">"%byte :: B " ") ++ esc_string wx) with (esc_name wn ++ [] ++ ">"%byte :: B " " ++ esc_string wx).
  rewrite cut_seq_mark; [|apply esc_name_no_gt|intros []]. steps. reflexivity.
Qed.

Lemma mcto_encodes enc dec m p : mcto_wire enc dec m p -> mcto_marshal enc m = Ok p.
Proof. intros H. destruct H. unfold mcto_marshal. cbn [mt_to mt_from mt_text]. texts. steps. reflexivity. Qed.
Lemma mcto_decodes enc dec m p m0 : mcto_wire enc dec m p -> mcto_unmarshal dec m0 p = (m, Ok tt).
Proof.
  intros H. destruct H. texts. unfold mcto_unmarshal.
  change (B " $") with (B " " ++ "$"%byte :: []).
  change (esc_name wt ++ (B " " ++ "$"%byte :: []) ++ esc_name wf ++ B " " ++ esc_string wx) with (esc_name wt ++ B " " ++ "$"%byte :: [] ++ (esc_name wf ++ B " " ++ esc_string wx)).
  rewrite cut_seq_mark; [|apply esc_name_no_dollar|not_in]. steps.
  change (B " " ++ esc_string wx) with (" "%byte :: esc_string wx).
  rewrite cut_app by (apply esc_name_no; [not_in..|assumption]). steps. reflexivity.
Qed.

(** ** Connections *)

Lemma last_is_app c a x : last_is c (a ++ [x]) = beq x c.
Proof. unfold last_is. rewrite rev_app_distr. reflexivity. Qed.
Lemma drop_last_app a x : drop_last (a ++ [x]) = a.
Proof. unfold drop_last. rewrite app_length. cbn. replace (length a + 1 - 1) with (length a) by lia. apply firstn_app_exact. Qed.
Lemma last_is_false c s : last_is c s = false <-> ~ ends_in c s.
Proof.
  unfold last_is, ends_in. split.
  - intros H [a ->]. rewrite rev_app_distr in H. cbn in H. rewrite beq_refl in H. discriminate.
  - intros H. destruct (rev s) as [|x r] eqn:E; [reflexivity|]. apply beq_false. intros ->. apply H. exists (rev r).
    rewrite <- (rev_involutive s), E. reflexivity.
Qed.

Lemma ctm_encodes enc dec m p : ctm_wire enc dec m p -> ctm_marshal enc m = Ok p.
Proof.
  intros H. destruct H; unfold ctm_marshal; cbn [ct_targ ct_src ct_kind ct_secure ct_address]; texts; (destruct t as [|c t]; [contradiction|]); steps; cbn [Z.eqb Pos.eqb app].
  - destruct secure; reflexivity.
  - destruct s as [|c' s]; [contradiction|]. steps. rewrite <- !app_assoc. reflexivity.
  - destruct secure; reflexivity.
Qed.
Lemma ctm_decodes enc dec m p m0 : ctm_wire enc dec m p -> ct_src m0 = [] -> ct_secure m0 = false -> ctm_unmarshal dec m0 p = (m, Ok tt).
Proof.
  intros H Hs Hk. destruct m0 as [t0 s0 a0 k0 sec0]. cbn in Hs, Hk. subst s0 sec0.
  assert (NS : forall w, ~ In " "%byte w -> ~ In " "%byte (esc_name w)) by (intros w Hw; apply esc_name_no; [not_in..|assumption]).
  destruct H; texts; unfold ctm_unmarshal;
    [change (B " " ++ a ++ (if secure then B "S" else [])) with (" "%byte :: (a ++ (if secure then B "S" else [])))
    |change (B " " ++ a ++ B "N" ++ (if secure then B "S" else []) ++ B " " ++ esc_name ws) with (" "%byte :: (a ++ B "N" ++ (if secure then B "S" else []) ++ B " " ++ esc_name ws))
    |change (B " " ++ a ++ B "R" ++ (if secure then B "S" else [])) with (" "%byte :: (a ++ B "R" ++ (if secure then B "S" else [])))];
    (rewrite cut_app; [|apply NS; assumption]); steps.
  - rewrite (proj2 (cut_none _ _)) by (destruct secure; [apply in_app_not; [assumption|not_in]|rewrite app_nil_r; assumption]).
    apply last_is_false in H3, H4. destruct secure.
    + change (B "S") with ["S"%byte]. rewrite last_is_app, drop_last_app. change (beq "S" "S") with true. cbn. rewrite H3, H4. reflexivity.
    + rewrite app_nil_r. specialize (H5 eq_refl). apply last_is_false in H5. cbn. rewrite H5. cbn. rewrite H3, H4. reflexivity.
  - replace (a ++ B "N" ++ (if secure then B "S" else []) ++ B " " ++ esc_name ws) with ((a ++ B "N" ++ (if secure then B "S" else [])) ++ " "%byte :: esc_name ws)
      by (rewrite <- !app_assoc; reflexivity).
    rewrite cut_app by (apply in_app_not; [assumption|destruct secure; not_in]). steps.
    destruct secure.
    + replace (a ++ B "N" ++ B "S") with ((a ++ ["N"%byte]) ++ ["S"%byte]) by (rewrite <- app_assoc; reflexivity).
      rewrite last_is_app, drop_last_app. change (beq "S" "S") with true. cbn. rewrite last_is_app, drop_last_app. reflexivity.
    + cbn [app]. change (B "N" ++ []) with ["N"%byte]. rewrite last_is_app. change (beq "N" "S") with false. cbn. rewrite last_is_app, drop_last_app. reflexivity.
  - rewrite (proj2 (cut_none _ _)) by (apply in_app_not; [assumption|destruct secure; not_in]).
    destruct secure.
    + replace (a ++ B "R" ++ B "S") with ((a ++ ["R"%byte]) ++ ["S"%byte]) by (rewrite <- app_assoc; reflexivity).
      rewrite last_is_app, drop_last_app. change (beq "S" "S") with true. cbn. rewrite !last_is_app, drop_last_app. reflexivity.
    + cbn [app]. change (B "R" ++ []) with ["R"%byte]. rewrite last_is_app. change (beq "R" "S") with false. cbn. rewrite !last_is_app, drop_last_app. reflexivity.
Qed.

Lemma rctm_encodes enc dec m p : rctm_wire enc dec m p -> rctm_marshal enc m = Ok p.
Proof. intros H. destruct H. unfold rctm_marshal. cbn [rc_from rc_to]. texts. steps. reflexivity. Qed.
Lemma rctm_decodes enc dec m p m0 : rctm_wire enc dec m p -> rctm_unmarshal dec m0 p = (m, Ok tt).
Proof.
  intros H. destruct H. texts. unfold rctm_unmarshal.
  change (B " " ++ esc_name wt) with (" "%byte :: esc_name wt).
  rewrite cut_app by (apply esc_name_no; [not_in..|assumption]). steps. reflexivity.
Qed.

(** ** User commands *)

Lemma sep_by_join sep l : sep_by sep l = join sep l.
Proof. induction l as [|x l IH]; [reflexivity|]. destruct l; [reflexivity|]. cbn [sep_by join] in *. rewrite IH. reflexivity. Qed.

Lemma is_space_white r : is_space_rune r = true -> white r.
Proof.
  unfold is_space_rune, white. destruct (r <=? 255)%N.
  - rewrite !orb_true_iff, !N.eqb_eq. cbn [In]. intuition.
  - rewrite !orb_true_iff, !N.eqb_eq, !andb_true_iff, !N.leb_le. intros H. 
    assert (K : (r = 8192 \/ r = 8193 \/ r = 8194 \/ r = 8195 \/ r = 8196 \/ r = 8197 \/ r = 8198 \/ r = 8199 \/ r = 8200 \/ r = 8201 \/ r = 8202 \/ r = 5760 \/ r = 8232 \/ r = 8233 \/ r = 8239 \/ r = 8287 \/ r = 12288)%N) by lia.
    cbn [In]. intuition.
Qed.
Lemma white_bytes r c : white r -> In c (utf8_of r) -> (b2n c <=? 32)%N = true \/ (128 <=? b2n c)%N = true.
Proof. intros H. cbn in H. repeat (destruct H as [<-|H]; [cbn; intuition (subst; cbn; auto)|]). destruct H. Qed.

Lemma decode_last_space s r n : decode_last_rune s = (r, n) -> is_space_rune r = true -> ends_white s.
Proof.
  intros H Hs. pose proof (is_space_white r Hs) as W. unfold decode_last_rune in H.
  destruct (rev s) as [|c t] eqn:E; [injection H as <- _; vm_compute in Hs; discriminate|].
  assert (Es : s = rev t ++ [c]) by (rewrite <- (rev_involutive s), E; reflexivity).
  destruct (b2n c <? 128)%N eqn:C.
  - injection H as <- _. exists (rev t), (b2n c). split; [exact W|]. rewrite Es. f_equal. unfold utf8_of. change 0x80%N with 128%N. rewrite C. rewrite n2b_b2n. reflexivity.
  - cbn zeta in H. set (k := Nat.min (length s) (S (back_to_start 3 t))) in H.
    destruct (decode_rune (skipn (length s - k) s)) as [x size] eqn:D.
    destruct (size =? k)%nat eqn:K; [|injection H as <- _; vm_compute in Hs; discriminate].
    injection H as <- _. apply Nat.eqb_eq in K. unfold decode_rune in D.
    destruct (decode1 (skipn (length s - k) s)) as [[r' n']|] eqn:D1.
    + injection D as -> ->. apply decode1_sound in D1. destruct D1 as (D1 & D2 & D3).
      exists (firstn (length s - k) s), x. split; [exact W|]. rewrite utf8_of_eq.
      rewrite <- (firstn_skipn (length s - k) s) at 1. f_equal. rewrite D2. rewrite K.
      replace (skipn k (skipn (length s - k) s)) with (@nil byte); [rewrite app_nil_r; reflexivity|].
      symmetry. apply skipn_all2. rewrite skipn_length. unfold k. lia.
    + injection D as <- _. vm_compute in Hs. discriminate.
Qed.
Lemma trim_right_space_id f s : ~ ends_white s -> trim_right_space f s = s.
Proof.
  intros H. destruct f as [|f]; [reflexivity|]. cbn [trim_right_space]. destruct s as [|c s]; [reflexivity|].
  destruct (decode_last_rune (c :: s)) as [r n] eqn:E. destruct (is_space_rune r) eqn:R; [|reflexivity].
  exfalso. apply H. eapply decode_last_space; eassumption.
Qed.
Lemma trim_left_space_id f c s : (b2n c <? 128)%N = true -> is_space_rune (b2n c) = false -> trim_left_space f (c :: s) = c :: s.
Proof. intros H1 H2. destruct f as [|f]; [reflexivity|]. cbn [trim_left_space]. unfold decode_rune, decode1. rewrite H1, H2. reflexivity. Qed.
Lemma trim_white_id c s : is_digit c = true -> ~ ends_white (c :: s) -> trim_white (c :: s) = c :: s.
Proof.
  intros Hc H. unfold trim_white. rewrite trim_left_space_id; [apply trim_right_space_id; exact H|..];
    apply digit_char_in in Hc; repeat (destruct Hc as [<-|Hc]; [reflexivity|]); destruct Hc.
Qed.

(** A suffix of an escaped text outside the escape alphabet is a suffix of the text. *)
Lemma esc_string_suffix w : forall a u, esc_string w = a ++ u -> (forall c, In c u -> ~ In c esc_alphabet) -> exists b, w = b ++ u.
Proof.
  induction w as [|x w IH] using rev_ind; intros a u E H.
  - cbn in E. symmetry in E. apply app_eq_nil in E. destruct E as [_ ->]. exists []. reflexivity.
  - destruct u as [|y u _] using rev_ind; [exists (w ++ [x]); rewrite app_nil_r; reflexivity|].
    unfold esc_string in E. rewrite flat_map_app in E. cbn [flat_map] in E. rewrite app_nil_r, app_assoc in E.
    destruct (esc_char_string_cases x) as [(Ex & _)|K].
    + rewrite Ex in E. apply app_inj_tail in E. destruct E as [E ->]. destruct (IH a u E) as [b ->].
      { intros c Hc. apply H. apply in_app_iff. left. exact Hc. }
      exists b. rewrite app_assoc. reflexivity.
    + exfalso. apply (H y); [apply in_app_iff; right; left; reflexivity|].
      assert (L : exists z, esc_char_string x = z ++ [";"%byte]).
      { destruct K as [(_ & ->)|[(_ & ->)|(_ & ->)]]; [exists (B "&amp")|exists (B "&#36")|exists (B "&#124")]; reflexivity. }
      destruct L as [z Ez]. rewrite Ez, app_assoc in E. apply app_inj_tail in E. destruct E as [_ <-]. cbn. tauto.
Qed.

Lemma suffix_after {A} (c : A) (x y u : list A) : forall a, x ++ c :: y = a ++ u -> ~ In c u -> exists b, y = b ++ u.
Proof.
  induction x as [|d x IH]; intros a E H.
  - destruct a as [|e a]; cbn in E.
    + exfalso. apply H. rewrite <- E. left. reflexivity.
    + injection E as -> E. exists a. exact E.
  - destruct a as [|e a]; cbn in E.
    + exfalso. apply H. rewrite <- E. right. apply in_app_iff. right. left. reflexivity.
    + injection E as -> E. exact (IH a E H).
Qed.

Lemma white_alpha r c : white r -> In c (utf8_of r) -> ~ In c ("$"%byte :: esc_alphabet).
Proof.
  intros H Hc. pose proof (white_bytes r c H Hc) as K. intros E.
  repeat (destruct E as [<-|E]; [vm_compute in K; destruct K; discriminate|]). destruct E.
Qed.
Lemma ends_white_esc x w : ends_white (x ++ "$"%byte :: esc_string w) -> ends_white w.
Proof.
  intros (a & r & W & E). apply suffix_after in E.
  - destruct E as [b E]. apply esc_string_suffix in E.
    + destruct E as [b' ->]. exists b', r. auto.
    + intros c Hc K. apply (white_alpha r c W Hc). right. exact K.
  - intros K. apply (white_alpha r _ W K). left. reflexivity.
Qed.
Lemma ends_white_digit x c : is_digit c = true -> ~ ends_white (x ++ [c]).
Proof.
  intros Hc (a & r & W & E). destruct (utf8_of r) as [|y u _] eqn:U using rev_ind.
  - cbn in W. repeat (destruct W as [<-|W]; [discriminate U|]). destruct W.
  - rewrite app_assoc in E. apply app_inj_tail in E. destruct E as [_ <-].
    pose proof (white_bytes r c W) as K. rewrite U in K. specialize (K ltac:(apply in_app_iff; right; left; reflexivity)).
    apply digit_char_in in Hc. repeat (destruct Hc as [<-|Hc]; [vm_compute in K; destruct K; discriminate|]). destruct Hc.
Qed.

Lemma join_esc ws : join (B "\") (map esc_string ws) = esc_string (join (B "\") ws).
Proof.
  induction ws as [|w ws IH]; [reflexivity|]. destruct ws as [|w' ws]; [reflexivity|].
  cbn [map]. rewrite !join_cons2. cbn [map] in IH. rewrite IH. unfold esc_string. rewrite !flat_map_app. reflexivity.
Qed.

Lemma trim_right_sp s : ~ ends_in " " s -> trim_right_by is_sp (s ++ B " ") = s.
Proof.
  intros H. unfold trim_right_by. rewrite rev_app_distr. cbn. apply last_is_false in H. unfold last_is in H.
  destruct (rev s) as [|c r] eqn:E; [rewrite <- (rev_involutive s), E; reflexivity|].
  cbn. unfold is_sp. rewrite H. change (rev r ++ [c]) with (rev (c :: r)). rewrite <- E. apply rev_involutive.
Qed.

Lemma marshal_path_join enc first ps es : Forall2 (fun p e => string_marshal enc p = Ok e) ps es ->
  marshal_path enc first ps = Ok ((if first then [] else match ps with [] => [] | _ => B "\" end) ++ join (B "\") es).
Proof.
  intros H. revert first. induction H as [|p e ps es H1 H2 IH]; intros first; [destruct first; reflexivity|].
  cbn [marshal_path]. rewrite H1. cbn [bind]. rewrite IH. cbn [bind]. f_equal.
  f_equal. destruct H2 as [|p' e' ps es H3 H4]; [cbn; apply app_nil_r|]. cbn [join]. reflexivity.
Qed.
Lemma unmarshal_path_ok dec ps ws : Forall2 (fun p w => string_unmarshal dec (esc_string w) = Ok p /\ w <> []) ps ws ->
  forall acc, unmarshal_path dec (map esc_string ws) acc = (acc ++ ps, Ok tt).
Proof.
  induction 1 as [|p w ps ws [H1 H2] H3 IH]; intros acc; cbn [map unmarshal_path]; [rewrite app_nil_r; reflexivity|].
  destruct (esc_string w) as [|c e] eqn:E.
  - exfalso. destruct w as [|x w]; [contradiction|]. cbn in E. destruct (esc_char_string_cases x) as [(K & _)|[(_ & K)|[(_ & K)|(_ & K)]]]; rewrite K in E; discriminate.
  - rewrite H1. rewrite IH, <- app_assoc. reflexivity.
Qed.
Lemma Forall2_weaken {A C} (P Q : A -> C -> Prop) l m : (forall a c, P a c -> Q a c) -> Forall2 P l m -> Forall2 Q l m.
Proof. intros H. induction 1; constructor; auto. Qed.

Lemma take_digits_all s : forallb is_digit s = true -> take_digits s = s.
Proof.
  induction s as [|c s IH]; [reflexivity|]. cbn [forallb take_digits]. rewrite andb_true_iff. intros [H1 H2].
  apply digit_char_in in H1. rewrite IH by exact H2. repeat (destruct H1 as [<-|H1]; [reflexivity|]). destruct H1.
Qed.
Lemma atoi_dec z : (0 <= z < 2 ^ 63)%Z -> atoi_trim (format_uint (Z.to_N z)) = Ok z.
Proof.
  intros H. replace (format_uint (Z.to_N z)) with (format_int z).
  - apply atoi_trim_format. unfold is_int64, two63. change (2 ^ 63)%Z with 9223372036854775808%Z in H. lia.
  - unfold format_int. replace (z <? 0)%Z with false; [reflexivity|]. symmetry. apply Z.ltb_ge. lia.
Qed.
Lemma to_uint64_ok z : (0 <= z < 2 ^ 63)%Z -> to_uint64 z = Z.to_N z.
Proof. intros H. apply to_uint64_small. exact H. Qed.
Lemma format_cons n : exists c r, format_uint n = c :: r /\ is_digit c = true.
Proof.
  pose proof (format_uint_not_nil n) as H. pose proof (format_uint_forall n) as F. destruct (format_uint n) as [|c r]; [contradiction|].
  cbn in F. apply andb_true_iff in F. exists c, r. split; [reflexivity|apply F].
Qed.
Lemma format_snoc n : exists c r, format_uint n = r ++ [c] /\ is_digit c = true.
Proof.
  pose proof (format_uint_not_nil n) as H. pose proof (format_uint_forall n) as F. destruct (format_uint n) as [|c r _] using rev_ind; [contradiction|].
  rewrite forallb_app in F. apply andb_true_iff in F. destruct F as [_ F]. cbn in F. rewrite andb_true_r in F. eauto.
Qed.

Lemma ucmd_parts enc dec path ws : Forall2 (ucmd_part enc dec) path ws ->
  Forall2 (fun p e => string_marshal enc p = Ok e) path (map esc_string ws) /\
  Forall2 (fun p w => string_unmarshal dec (esc_string w) = Ok p /\ w <> []) path ws /\
  (forall x, In x (map esc_string ws) -> ~ In "\"%byte x).
Proof.
  induction 1 as [|p w ps ws (H1 & H2 & H3) H4 (IH1 & IH2 & IH3)]; [repeat split; [constructor|constructor|intros x []]|].
  apply string_both in H1. destruct H1 as (M & U & _). split; [|split].
  - constructor; assumption.
  - constructor; [split; assumption|assumption].
  - intros x [<-|Hx]; [|apply IH3; exact Hx]. apply esc_string_no; [not_in..|assumption].
Qed.
Lemma map_es ws : map (flat_map entity_string) ws = map esc_string ws.
Proof. apply map_ext. apply es_eq. Qed.

Lemma ucmd_encodes enc dec m p : ucmd_wire enc dec m p -> ucmd_marshal enc m = Ok p.
Proof.
  intros H. destruct H; unfold ucmd_marshal; cbn [uc_typ uc_context uc_path uc_command]; rewrite !to_uint64_ok, !format_dec by assumption; texts; steps.
  - reflexivity.
  - destruct path as [|p0 path]; [contradiction|]. apply ucmd_parts in H2. destruct H2 as (H2 & _ & _).
    rewrite (marshal_path_join _ _ _ _ H2). cbn [bind app]. destruct cmd as [|c0 cmd]; [contradiction|]. steps.
    f_equal. rewrite map_es, <- !app_assoc. reflexivity.
Qed.

Lemma ucmd_decodes enc dec m p m0 : ucmd_wire enc dec m p -> uc_path m0 = [] -> uc_command m0 = [] -> ucmd_unmarshal dec m0 p = (m, Ok tt).
Proof.
  intros H Hp Hc. destruct m0 as [t0 c0 p0 m0]. cbn in Hp, Hc. subst p0 m0.
  destruct H; rewrite <- !format_dec; texts; unfold ucmd_unmarshal.
  - destruct (format_cons (Z.to_N t)) as (d & r & Ed & Hd). destruct (format_snoc (Z.to_N c)) as (d2 & r2 & Ed2 & Hd2).
    assert (T : trim_white (format_uint (Z.to_N t) ++ B " " ++ format_uint (Z.to_N c)) = format_uint (Z.to_N t) ++ B " " ++ format_uint (Z.to_N c)).
    { rewrite Ed, Ed2. cbn [app]. apply trim_white_id; [exact Hd|]. 
      replace (d :: r ++ B " " ++ r2 ++ [d2]) with ((d :: r ++ B " " ++ r2) ++ [d2]) by (cbn [app]; rewrite <- !app_assoc; reflexivity).
      apply ends_white_digit. exact Hd2. }
    rewrite T. clear T. change (B " " ++ format_uint (Z.to_N c)) with (" "%byte :: format_uint (Z.to_N c)).
    rewrite splitn_byte_cut by (apply format_uint_notin; reflexivity). rewrite splitn_byte_notin by (apply format_uint_notin; reflexivity).
    rewrite atoi_dec by assumption. rewrite take_digits_all by apply format_uint_forall. rewrite atoi_dec by assumption. reflexivity.
  - rewrite map_es, !sep_by_join in *. pose proof (ucmd_parts _ _ _ _ H2) as (_ & P2 & P3).
    set (jp := join (B "\") (map esc_string ws)).
    destruct (format_cons (Z.to_N t)) as (d & r & Ed & Hd).
    assert (T : trim_white (format_uint (Z.to_N t) ++ B " " ++ format_uint (Z.to_N c) ++ B " " ++ jp ++ B " $" ++ esc_string wc) =
                format_uint (Z.to_N t) ++ B " " ++ format_uint (Z.to_N c) ++ B " " ++ jp ++ B " $" ++ esc_string wc).
    { rewrite Ed. cbn [app]. apply trim_white_id; [exact Hd|]. 
      replace (d :: r ++ B " " ++ format_uint (Z.to_N c) ++ B " " ++ jp ++ B " $" ++ esc_string wc)
        with ((d :: r ++ B " " ++ format_uint (Z.to_N c) ++ B " " ++ jp ++ B " ") ++ "$"%byte :: esc_string wc) by (cbn [app]; rewrite <- !app_assoc; reflexivity).
      intros K. apply ends_white_esc in K. contradiction. }
    rewrite T. clear T.
    change (B " " ++ format_uint (Z.to_N c) ++ B " " ++ jp ++ B " $" ++ esc_string wc) with (" "%byte :: format_uint (Z.to_N c) ++ " "%byte :: jp ++ B " $" ++ esc_string wc).
    rewrite !splitn_byte_cut by (apply format_uint_notin; reflexivity). cbn [splitn_byte].
    rewrite atoi_dec by assumption. rewrite take_digits_all by apply format_uint_forall. rewrite atoi_dec by assumption.
    replace (jp ++ B " $" ++ esc_string wc) with ((jp ++ B " ") ++ "$"%byte :: esc_string wc) by (rewrite <- app_assoc; reflexivity).
    rewrite cut_app.
    2:{ apply in_app_not; [|not_in]. unfold jp. rewrite join_esc. apply esc_string_no_dollar. }
    assert (NT : ~ ends_in " " jp).
    { intros [a E]. unfold jp in E. rewrite join_esc in E. apply esc_string_suffix in E.
      - destruct E as [b E]. apply H3. exists b. exact E.
      - intros x [<-|[]]. not_in. }
    destruct (jp ++ B " ") as [|j0 jr] eqn:EJ; [apply app_eq_nil in EJ; destruct EJ; discriminate|]. rewrite <- EJ.
    rewrite trim_right_sp by exact NT. unfold jp. change (B "\") with ["\"%byte]. rewrite split_byte_join; [|intros K|exact P3].
    2:{ apply map_eq_nil in K. subst ws. inversion H2; subst. contradiction. }
    rewrite (unmarshal_path_ok _ _ _ P2). cbn [app]. steps. reflexivity.
Qed.
