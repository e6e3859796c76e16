(** Reading relations: chat messages. *)
From Verif Require Import Base BaseFacts Num NumFacts NumSpec Utf8 Utf8Facts SpecText SpecHash SpecNmdc SpecRead HtmlReadFacts NmdcText NmdcTextFacts.
From Verif Require Import NmdcChat NmdcHub NmdcFiles NmdcUser NmdcMessage NmdcChatFacts NmdcReadFacts.

Lemma white_space r : white r -> is_space_rune r = true /\ is_scalar r = true.
Proof. intros H. cbn in H. repeat (destruct H as [<-|H]; [split; reflexivity|]). destruct H. Qed.
Lemma white_not_nil r : white r -> utf8_of r <> [].
Proof. intros H. cbn in H. repeat (destruct H as [<-|H]; [discriminate|]). destruct H. Qed.
Lemma decode_white w t : white w -> decode_rune (utf8_of w ++ t) = (w, length (utf8_of w)).
Proof. intros H. apply white_space in H as [_ H]. unfold decode_rune. rewrite utf8_of_eq, decode1_encode by exact H. reflexivity. Qed.
Lemma decoded_white s r n : decode_rune s = (r, n) -> is_space_rune r = true -> white r /\ n = length (utf8_of r) /\ s = utf8_of r ++ skipn n s.
Proof.
  unfold decode_rune. intros D W. split; [now apply is_space_white|]. destruct (decode1 s) as [p|] eqn:E.
  - subst p. apply decode1_sound in E as (_ & E1 & E2). rewrite utf8_of_eq. auto.
  - injection D as <- _. vm_compute in W. discriminate.
Qed.
Lemma starts_white_dec s : starts_white s <-> is_space_rune (fst (decode_rune s)) = true.
Proof.
  split.
  - intros (r & t & W & ->). rewrite decode_white by exact W. apply white_space, W.
  - destruct (decode_rune s) as [r n] eqn:D. cbn. intros W. destruct (decoded_white _ _ _ D W) as (W' & _ & E). exists r, (skipn n s). auto.
Qed.

(** ** The end of the name *)

Definition closes (r : bytes) : bool := is_space_rune (fst (decode_rune r)).
Lemma closing_iff a r : closing (a ++ B ">" ++ r) a <-> closes r = true.
Proof.
  unfold closes. rewrite <- starts_white_dec. unfold closing, starts_white. split.
  - intros (w & b & W & E). apply app_inv_head in E. injection E as ->. eauto.
  - intros (w & b & W & ->). exists w, b. auto.
Qed.
Lemma index_stop_split s : match index_stop s with
  | Some j => exists l c r, s = l ++ c :: r /\ length l = j /\ Forall (fun x => stop_char x = false) l /\ stop_char c = true
  | None => Forall (fun x => stop_char x = false) s
  end.
Proof.
  induction s as [|c s IH]; cbn [index_stop]; [constructor|]. destruct (stop_char c) eqn:C.
  - exists [], c, s. repeat split; auto.
  - destruct (index_stop s) as [j|]; cbn [option_map].
    + destruct IH as (l & x & r & -> & <- & F & X). exists (c :: l), x, r. repeat split; auto.
    + constructor; assumption.
Qed.
Lemma index_stop_at l c r : Forall (fun x => stop_char x = false) l -> stop_char c = true -> index_stop (l ++ c :: r) = Some (length l).
Proof. induction 1 as [|x l X _ IH]; intros C; cbn [app index_stop length]; [now rewrite C|]. now rewrite X, IH. Qed.
Lemma index_stop_none l : Forall (fun x => stop_char x = false) l -> index_stop l = None.
Proof. induction 1 as [|x l X _ IH]; [reflexivity|]. cbn. now rewrite X, IH. Qed.
Lemma no_stop_iff l : Forall (fun x => stop_char x = false) l <-> one_line l /\ ~ In ">"%byte l.
Proof.
  unfold one_line. rewrite Forall_forall. split.
  - intros H. repeat split; intros I; apply H in I; discriminate I.
  - intros [[H1 H2] H3] x I. unfold stop_char. destruct (beq_spec x ">") as [->|]; [tauto|]. destruct (beq_spec x x0d) as [->|]; [tauto|]. destruct (beq_spec x x0a) as [->|]; [tauto|]. reflexivity.
Qed.
Lemma one_line_app a b : one_line (a ++ b) <-> one_line a /\ one_line b.
Proof. unfold one_line. rewrite !in_app_iff. tauto. Qed.
Lemma skipn_S (k : nat) (d : bytes) : skipn 1 (skipn k d) = skipn (S k) d.
Proof. revert d. induction k as [|k IH]; intros [|x d]; try reflexivity. exact (IH d). Qed.
Lemma prefix_split (x y a z : bytes) : length x <= length a -> x ++ y = a ++ z -> exists a', a = x ++ a' /\ y = a' ++ z.
Proof.
  revert a. induction x as [|c x IH]; intros a L E; [exists a; auto|]. destruct a as [|c' a]; [cbn in L; lia|]. injection E as <- E.
  destruct (IH a) as (a' & -> & ->); [cbn in L; lia|exact E|]. exists a'. auto.
Qed.
Lemma gt_line : one_line (B ">").
Proof. split; intros [H|[]]; discriminate H. Qed.
Lemma nth_here (a : bytes) c r d : nth (length a) (a ++ c :: r) d = c.
Proof. rewrite app_nth2, Nat.sub_diag by lia. reflexivity. Qed.

(** One round of the loop at [pre] in [pre ++ rest]. *)
Lemma name_end_step f pre rest : rest <> [] ->
  name_end (S f) (pre ++ rest) (length pre) =
  match index_stop rest with
  | Some j =>
      if beq (nth j rest x00) ">" then
        if (j =? length rest - 1)%nat then Ok (j, 1)
        else let (r, sz) := decode_rune (skipn (j + 1) rest) in
             if is_space_rune r then Ok (length pre + j, sz + 1)
             else name_end f (pre ++ rest) (length pre + (j + 1))
      else if (length pre =? 0)%nat then Err (EProtocol "no closing token") else Ok (length pre - 1, 1)
  | None => if (length pre =? 0)%nat then Err (EProtocol "no closing token") else Ok (length pre - 1, 1)
  end.
Proof.
  intros N. cbn [name_end]. assert (L : 0 < length rest) by (destruct rest; [contradiction|cbn; lia]).
  destruct (Nat.ltb_spec (length pre) (length (pre ++ rest))) as [_|X]; [|rewrite app_length in X; lia].
  rewrite skipn_app_exact. destruct (index_stop rest) as [j|]; [|reflexivity].
  replace (nth (length pre + j) (pre ++ rest) x00) with (nth j rest x00) by (rewrite app_nth2 by lia; f_equal; lia).
  replace (length pre + j =? length (pre ++ rest) - 1)%nat with (j =? length rest - 1)%nat.
  2:{ rewrite app_length. destruct (Nat.eqb_spec j (length rest - 1)), (Nat.eqb_spec (length pre + j) (length pre + length rest - 1)); lia. }
  replace (skipn (length pre + j + 1) (pre ++ rest)) with (skipn (j + 1) rest); [reflexivity|].
  rewrite skipn_app, (skipn_all2 pre) by lia. cbn. f_equal. lia.
Qed.

(** Before [x] no name ends: the loop arrives at the last bracket of [x]. *)
Lemma advance f : forall pre x y, length (x ++ y) < f -> one_line (pre ++ x) -> y <> [] ->
  (forall a b, x = a ++ B ">" ++ b -> closes (b ++ y) = false) ->
  exists f' p q, x = p ++ q /\ name_end f (pre ++ x ++ y) (length pre) = name_end f' (pre ++ x ++ y) (length (pre ++ p)) /\
    length (q ++ y) < f' /\ ~ In ">"%byte q /\ (p = [] \/ exists z, p = z ++ B ">").
Proof.
  induction f as [|f IH]; intros pre x y L O N C; [lia|].
  destruct (cut ">" x) as [[l r]|] eqn:I; [apply cut_spec in I as [-> Nl]|apply cut_none in I].
  -    assert (St : Forall (fun z => stop_char z = false) l) by (apply no_stop_iff; rewrite !one_line_app in O; tauto).
    assert (E : name_end (S f) (pre ++ (l ++ ">"%byte :: r) ++ y) (length pre) = name_end f (pre ++ (l ++ ">"%byte :: r) ++ y) (length (pre ++ l ++ B ">"))).
    { rewrite name_end_step by (rewrite <- app_assoc; destruct l; discriminate).
      rewrite <- app_assoc. cbn [app]. rewrite index_stop_at by (reflexivity || exact St). rewrite nth_here. cbn [beq]. change (beq ">" ">") with true. cbv iota.
      destruct (Nat.eqb_spec (length l) (length (l ++ ">"%byte :: r ++ y) - 1)) as [X|_].
      { exfalso. rewrite app_length in X. cbn in X. rewrite app_length in X. destruct y; [contradiction|]. cbn in X. lia. }
      replace (skipn (length l + 1) (l ++ ">"%byte :: r ++ y)) with (r ++ y).
      2:{ rewrite skipn_app, skipn_all2 by lia. replace (length l + 1 - length l) with 1 by lia. reflexivity. }
      assert (Cl := C l r eq_refl). unfold closes in Cl. destruct (decode_rune (r ++ y)) as [z sz]. cbn in Cl. rewrite Cl. f_equal. rewrite !app_length. cbn. lia. }
    rewrite E. replace (pre ++ (l ++ ">"%byte :: r) ++ y) with ((pre ++ l ++ B ">") ++ r ++ y) by (rewrite <- !app_assoc; reflexivity).
    destruct (IH (pre ++ l ++ B ">") r y) as (f' & p & q & -> & E' & L' & I' & P').
    + rewrite !app_length in *. cbn in *. lia.
    + change (l ++ ">"%byte :: r) with (l ++ B ">" ++ r) in O. rewrite !one_line_app in *. tauto.
    + exact N.
    + intros a b ->. apply (C (l ++ B ">" ++ a) b). rewrite <- !app_assoc. reflexivity.
    + exists f', (l ++ B ">" ++ p), q. split; [rewrite <- !app_assoc; reflexivity|]. split; [rewrite E'; f_equal; rewrite !app_length; lia|].
      split; [exact L'|]. split; [exact I'|]. right. destruct P' as [->|[z ->]]; [exists l; now rewrite app_nil_r|exists (l ++ B ">" ++ z); now rewrite <- !app_assoc].
  - exists (S f), [], x. rewrite app_nil_r. repeat split; auto.
Qed.

Lemma name_end_reads d n t : d <> [] -> chat_parts d n t ->
  exists i off, name_end (S (length d)) d 0 = Ok (i, off) /\ n = firstn i d /\ t = skipn (i + off) d.
Proof.
  intros Nd H. destruct H as [n w t W O M|n l rest M O Ol Nl Ne R|n O Nn|p q n c t M O Nq E Ln|]; [..|contradiction].
  - destruct (advance (S (length (n ++ B ">" ++ utf8_of w ++ t))) [] n (B ">" ++ utf8_of w ++ t)) as (f & p & q & -> & E & L & I & P);
      [lia|exact O|discriminate| |].
    { intros a b ->. apply not_true_is_false. intros X. apply (closing_iff a) in X. specialize (M a). rewrite !app_length in M. cbn in M.
      rewrite <- !app_assoc in *. specialize (M X). lia. }
    cbn [app length] in E. exists (length (p ++ q)), (1 + length (utf8_of w)). split; [|split].
    + rewrite E. rewrite <- app_assoc. destruct f as [|f]; [lia|]. rewrite name_end_step by (destruct q; discriminate).
      rewrite one_line_app in O. change (q ++ B ">" ++ utf8_of w ++ t) with (q ++ ">"%byte :: utf8_of w ++ t). rewrite index_stop_at; [|apply no_stop_iff; tauto|reflexivity].
      rewrite nth_here. change (beq ">" ">") with true. cbv iota. pose proof (white_not_nil w W) as Nw.
      destruct (Nat.eqb_spec (length q) (length (q ++ ">"%byte :: utf8_of w ++ t) - 1)) as [X|_].
      { exfalso. rewrite app_length in X. cbn in X. rewrite app_length in X. destruct (utf8_of w); [contradiction|]. cbn in X. lia. }
      replace (skipn (length q + 1) (q ++ ">"%byte :: utf8_of w ++ t)) with (utf8_of w ++ t).
      2:{ rewrite skipn_app, skipn_all2 by lia. replace (length q + 1 - length q) with 1 by lia. reflexivity. }
      rewrite decode_white by exact W. rewrite (proj1 (white_space w W)). rewrite app_length. do 2 f_equal; lia.
    + now rewrite firstn_app_exact.
    + rewrite skipn_app, skipn_all2 by lia. replace (length (p ++ q) + (1 + length (utf8_of w)) - length (p ++ q)) with (1 + length (utf8_of w)) by lia.
      cbn [app skipn Nat.add]. change (B ">" ++ utf8_of w ++ t) with (">"%byte :: utf8_of w ++ t). cbn [skipn]. now rewrite skipn_app_exact.
  - destruct (advance (S (length (n ++ B ">" ++ l ++ rest))) [] (n ++ B ">") (l ++ rest)) as (f & p & q & Ex & E & L & I & P);
      [rewrite <- !app_assoc; cbn; lia|apply (proj2 (one_line_app n (B ">"))); split; [exact O|exact gt_line]|exact Ne| |].
    { intros a b Ea. apply not_true_is_false. intros X. apply (closing_iff a) in X. apply (M a).
      - replace (n ++ B ">" ++ l ++ rest) with ((n ++ B ">") ++ l ++ rest) by (rewrite <- !app_assoc; reflexivity). rewrite Ea, <- !app_assoc. exact X.
      - assert (K : one_line (n ++ B ">")) by (apply one_line_app; split; [exact O|exact gt_line]). rewrite Ea, !one_line_app in K. tauto. }
    assert (q = []) as ->.
    { destruct q as [|c q _] using rev_ind; [reflexivity|]. exfalso. rewrite app_assoc in Ex. apply app_inj_tail in Ex as [_ <-]. apply I, in_or_app. right. now left. }
    rewrite app_nil_r in Ex. subst p. cbn [app length] in E. exists (length n), 1. replace (n ++ B ">" ++ l ++ rest) with ((n ++ B ">") ++ l ++ rest) in * by (rewrite <- !app_assoc; reflexivity).
    split; [|split].
    + rewrite E. destruct f as [|f]; [lia|]. rewrite name_end_step by exact Ne. assert (Sl : Forall (fun x => stop_char x = false) l) by (apply no_stop_iff; tauto).
      assert (Z : (length (n ++ B ">") =? 0)%nat = false) by (apply Nat.eqb_neq; rewrite app_length; cbn; lia).
      assert (Z' : @Ok (nat * nat) (length (n ++ B ">") - 1, 1) = Ok (length n, 1)) by (rewrite app_length; do 2 f_equal; cbn; lia).
      destruct R as [->|[[r ->]|[r ->]]].
      * rewrite app_nil_r, index_stop_none by exact Sl. rewrite Z. exact Z'.
      * change ([x0d] ++ r) with (x0d :: r). rewrite index_stop_at by (reflexivity || exact Sl). rewrite nth_here. change (beq x0d ">") with false. cbv iota. rewrite Z. exact Z'.
      * change ([x0a] ++ r) with (x0a :: r). rewrite index_stop_at by (reflexivity || exact Sl). rewrite nth_here. change (beq x0a ">") with false. cbv iota. rewrite Z. exact Z'.
    + rewrite <- app_assoc. now rewrite firstn_app_exact.
    + replace (length n + 1) with (length (n ++ B ">")) by (rewrite app_length; reflexivity). now rewrite skipn_app_exact.
  - exists (length n), 1. split; [|split].
    + pose proof (name_end_step (length (n ++ B ">")) [] (n ++ B ">") ltac:(destruct n; discriminate)) as E. cbn [app length] in E. rewrite E.
      change (n ++ B ">") with (n ++ ">"%byte :: []). rewrite index_stop_at; [|apply no_stop_iff; tauto|reflexivity]. rewrite nth_here. change (beq ">" ">") with true. cbv iota.
      replace (length n =? length (n ++ [">"%byte]) - 1)%nat with true; [reflexivity|]. symmetry. apply Nat.eqb_eq. rewrite app_length. cbn. lia.
    + now rewrite firstn_app_exact.
    + replace (length n + 1) with (length (n ++ B ">")) by (rewrite app_length; reflexivity). now rewrite skipn_all.
  - destruct (advance (S (length (p ++ B ">" ++ q ++ B ">"))) [] (p ++ B ">") (q ++ B ">")) as (f & x & y & Ex & E' & L & I & P);
      [rewrite <- !app_assoc; cbn; lia|rewrite one_line_app in O; apply (proj2 (one_line_app p (B ">"))); split; [tauto|exact gt_line]|destruct q; discriminate| |].
    { intros a b Ea. apply not_true_is_false. intros X. apply (closing_iff a) in X. apply (M a).
      replace (p ++ B ">" ++ q ++ B ">") with ((p ++ B ">") ++ q ++ B ">") by (rewrite <- !app_assoc; reflexivity). rewrite Ea, <- !app_assoc. exact X. }
    assert (y = []) as ->.
    { destruct y as [|c' y _] using rev_ind; [reflexivity|]. exfalso. rewrite app_assoc in Ex. apply app_inj_tail in Ex as [_ <-]. apply I, in_or_app. right. now left. }
    rewrite app_nil_r in Ex. subst x. cbn [app length] in E'. exists (length q), 1.
    replace (p ++ B ">" ++ q ++ B ">") with ((p ++ B ">") ++ q ++ B ">") in * by (rewrite <- !app_assoc; reflexivity).
    split; [|split].
    + rewrite E'. destruct f as [|f]; [lia|]. rewrite name_end_step by (destruct q; discriminate). rewrite one_line_app in O.
      change (q ++ B ">") with (q ++ ">"%byte :: []). rewrite index_stop_at; [|apply no_stop_iff; tauto|reflexivity]. rewrite nth_here. change (beq ">" ">") with true. cbv iota.
      replace (length q =? length (q ++ [">"%byte]) - 1)%nat with true; [reflexivity|]. symmetry. apply Nat.eqb_eq. rewrite app_length. cbn. lia.
    + rewrite E, <- Ln. now rewrite firstn_app_exact.
    + rewrite E, <- Ln. replace (length n + 1) with (length (n ++ [c])) by (rewrite app_length; reflexivity). now rewrite app_assoc, skipn_app_exact.
Qed.

Lemma name_end_parts f : forall pre rest i off, length rest < f -> rest <> [] -> one_line pre -> (pre = [] \/ exists z, pre = z ++ B ">") ->
  (forall a, closing (pre ++ rest) a -> length pre <= length a) -> name_end f (pre ++ rest) (length pre) = Ok (i, off) ->
  chat_parts (pre ++ rest) (firstn i (pre ++ rest)) (skipn (i + off) (pre ++ rest)).
Proof.
  induction f as [|f IH]; intros pre rest i off L N O P C H; [lia|]. rewrite name_end_step in H by exact N.
  pose proof (index_stop_split rest) as Sp. destruct (index_stop rest) as [j|].
  - destruct Sp as (l & c & r & -> & <- & Sl & Sc). rewrite nth_here in H. apply no_stop_iff in Sl as [Ol Nl]. destruct (beq_spec c ">") as [->|Nc].
    + destruct (Nat.eqb_spec (length l) (length (l ++ ">"%byte :: r) - 1)) as [E|E].
      * assert (r = []) as -> by (rewrite app_length in E; cbn in E; destruct r; [reflexivity|cbn in E; lia]). injection H as <- <-.
        destruct P as [->|[z ->]].
        -- cbn [app]. rewrite firstn_app_exact. replace (length l + 1) with (length (l ++ [">"%byte])) by (rewrite app_length; reflexivity).
           rewrite skipn_all. apply cs_end; assumption.
        -- assert (X : exists c', (z ++ B ">") ++ l ++ [">"%byte] = firstn (length l) ((z ++ B ">") ++ l ++ [">"%byte]) ++ [c'] ++ skipn (length l + 1) ((z ++ B ">") ++ l ++ [">"%byte])).
           { remember ((z ++ B ">") ++ l ++ [">"%byte]) as d eqn:Ed. assert (Ld : length l < length d) by (subst d; rewrite !app_length; cbn; lia).
             destruct (skipn (length l) d) as [|c' d'] eqn:Sk; [apply (f_equal (@length byte)) in Sk; rewrite skipn_length in Sk; cbn in Sk; lia|].
             exists c'. rewrite <- (firstn_skipn (length l) d) at 1. rewrite Sk. f_equal. cbn. f_equal.
             rewrite Nat.add_1_r. apply (f_equal (skipn 1)) in Sk. rewrite skipn_S in Sk. exact (eq_sym Sk). }
           destruct X as [c' X]. replace ((z ++ B ">") ++ l ++ [">"%byte]) with (z ++ B ">" ++ l ++ B ">") in * by (rewrite <- !app_assoc; reflexivity).
           apply (cs_wrong z l _ c'); [|rewrite one_line_app in *; tauto|exact Nl|exact X|].
           ++ intros a Ca. assert (K := C a Ca). destruct Ca as (w & b & W & Ea). rewrite app_length in K. cbn in K.
              rewrite app_assoc in Ea. apply prefix_split in Ea as (a' & -> & Ea); [|rewrite app_length; cbn; lia].
              destruct (le_lt_dec (length a') (length l)) as [La|La].
              ** destruct (Nat.eq_dec (length a') (length l)) as [Le|Le].
                 --- apply len_app_inj in Ea as [_ Ea]; [|lia]. injection Ea as Ea. symmetry in Ea. apply app_eq_nil in Ea as [Ea _]. now apply white_not_nil in Ea.
                 --- apply Nl. assert (Y := f_equal (fun s => nth_error s (length a')) Ea). cbn in Y. rewrite nth_error_app1, nth_error_app2, Nat.sub_diag in Y by lia. cbn in Y. eapply nth_error_In; exact Y.
              ** apply (f_equal (@length byte)) in Ea. rewrite !app_length in Ea. cbn in Ea. lia.
           ++ rewrite firstn_length_le; [reflexivity|]. rewrite !app_length. cbn. lia.
      * destruct (decode_rune (skipn (length l + 1) (l ++ ">"%byte :: r))) as [x sz] eqn:D.
        assert (Sk : skipn (length l + 1) (l ++ ">"%byte :: r) = r) by (rewrite skipn_app, skipn_all2 by lia; replace (length l + 1 - length l) with 1 by lia; reflexivity).
        rewrite Sk in D. destruct (is_space_rune x) eqn:W.
        -- injection H as <- <-. destruct (decoded_white _ _ _ D W) as (Wx & -> & Er). remember (skipn (length (utf8_of x)) r) as t eqn:Et. clear Et. subst r.
           replace (length pre + length l) with (length (pre ++ l)) by apply app_length.
           replace (pre ++ l ++ ">"%byte :: utf8_of x ++ t) with ((pre ++ l) ++ B ">" ++ utf8_of x ++ t) in * by (rewrite <- app_assoc; reflexivity).
           rewrite firstn_app_exact. replace (skipn _ _) with t.
           2:{ rewrite skipn_app, skipn_all2 by lia. replace (length (pre ++ l) + (length (utf8_of x) + 1) - length (pre ++ l)) with (length (B ">" ++ utf8_of x)) by (rewrite app_length; cbn; lia).
               cbn [app]. now rewrite (app_assoc (B ">")), skipn_app_exact. }
           apply cs_space; [exact Wx|apply one_line_app; auto|]. intros a Ca. assert (K := C a Ca). destruct Ca as (w & b & _ & Ea). rewrite app_length.
           destruct (le_lt_dec (length pre + length l) (length a)) as [Y|Y]; [exact Y|]. exfalso. apply Nl.
           assert (Z := f_equal (fun s => nth_error s (length a)) Ea). cbn in Z. rewrite <- app_assoc in Z. rewrite nth_error_app2 in Z by lia. rewrite nth_error_app1 in Z by lia.
           rewrite nth_error_app2, Nat.sub_diag in Z by lia. cbn in Z. eapply nth_error_In; exact Z.
        -- replace (pre ++ l ++ ">"%byte :: r) with ((pre ++ l ++ B ">") ++ r) in * by (rewrite <- !app_assoc; reflexivity).
           replace (length pre + (length l + 1)) with (length (pre ++ l ++ B ">")) in H by (rewrite !app_length; cbn; lia).
           apply IH; [..|exact H].
           ++ rewrite app_length in L. cbn in L. lia.
           ++ intros ->. apply E. rewrite app_length. cbn. lia.
           ++ rewrite !one_line_app. split; [exact O|]. split; [exact Ol|]. exact gt_line.
           ++ right. exists (pre ++ l). now rewrite <- app_assoc.
           ++ intros a Ca. assert (K := C a Ca). rewrite !app_length. cbn.
              destruct (le_lt_dec (length pre + (length l + 1)) (length a)) as [Y|Y]; [exact Y|]. exfalso. destruct (Nat.eq_dec (length a) (length pre + length l)) as [La|La].
              ** destruct Ca as (w & b & Ww & Ea). replace ((pre ++ l ++ B ">") ++ r) with ((pre ++ l) ++ B ">" ++ r) in Ea by (rewrite <- !app_assoc; reflexivity).
                 apply len_app_inj in Ea as [_ Ea]; [|rewrite app_length; lia]. injection Ea as ->. rewrite decode_white in D by exact Ww. injection D as <- _. apply white_space in Ww. destruct Ww as [Ww _]. congruence.
              ** apply Nl. destruct Ca as (w & b & _ & Ea).
                 assert (Z := f_equal (fun s => nth_error s (length a)) Ea). cbn in Z. rewrite <- !app_assoc in Z. rewrite nth_error_app2 in Z by lia. rewrite nth_error_app1 in Z by lia.
                 rewrite nth_error_app2, Nat.sub_diag in Z by lia. cbn in Z. eapply nth_error_In; exact Z.
    + destruct P as [->|[z ->]]; [discriminate|]. destruct (Nat.eqb_spec (length (z ++ B ">")) 0); [discriminate|]. injection H as <- <-.
      assert (Cc : c = x0d \/ c = x0a).
      { unfold stop_char in Sc. apply orb_true_iff in Sc as [Sc|Sc]; [apply orb_true_iff in Sc as [Sc|Sc]|]; apply beq_true in Sc; auto. contradiction. }
      replace (length (z ++ B ">") - 1) with (length z) by (rewrite app_length; cbn; lia). replace (length z + 1) with (length (z ++ B ">")) by (rewrite app_length; reflexivity).
      rewrite skipn_app_exact. rewrite <- app_assoc, firstn_app_exact. rewrite one_line_app in O.
      apply cs_last; [|tauto|exact Ol|exact Nl|destruct l; discriminate|].
      * rewrite <- app_assoc in C. intros a Ca Oa. assert (K := C a Ca). destruct Ca as (w & b & _ & Ea). rewrite app_length in K. cbn in K.
        destruct (le_lt_dec (length z + 1 + length l) (length a)) as [Y|Y].
        -- destruct (Nat.eq_dec (length a) (length z + 1 + length l)) as [Le|Le].
           ++ replace (z ++ B ">" ++ l ++ c :: r) with ((z ++ B ">" ++ l) ++ c :: r) in Ea by (rewrite <- !app_assoc; reflexivity).
              apply len_app_inj in Ea as [_ Ea]; [|rewrite !app_length; cbn; lia]. injection Ea as -> _. contradiction.
           ++ assert (Ic : In c a); [|destruct Oa; destruct Cc; subst c; contradiction].
              assert (Z := f_equal (fun s => nth_error s (length z + 1 + length l)) Ea). cbn in Z. rewrite (nth_error_app1 a) in Z by lia.
              replace (z ++ ">"%byte :: l ++ c :: r) with ((z ++ B ">" ++ l) ++ c :: r) in Z by (rewrite <- !app_assoc; reflexivity).
              rewrite nth_error_app2 in Z by (rewrite !app_length; cbn; lia). replace (length z + 1 + length l - length (z ++ B ">" ++ l)) with 0 in Z by (rewrite !app_length; cbn; lia).
              symmetry in Z. eapply nth_error_In; exact Z.
        -- apply Nl. assert (Z := f_equal (fun s => nth_error s (length a)) Ea). cbn in Z.
           replace (z ++ ">"%byte :: l ++ c :: r) with ((z ++ B ">") ++ l ++ c :: r) in Z by (rewrite <- !app_assoc; reflexivity).
           rewrite nth_error_app2 in Z by (rewrite !app_length; cbn; lia). rewrite nth_error_app1 in Z by (rewrite !app_length; cbn; lia).
           rewrite nth_error_app2, Nat.sub_diag in Z by lia. cbn in Z. eapply nth_error_In; exact Z.
      * right. destruct Cc as [->| ->]; [left|right]; exists r; reflexivity.
  - destruct P as [->|[z ->]]; [discriminate|]. destruct (Nat.eqb_spec (length (z ++ B ">")) 0); [discriminate|]. injection H as <- <-. apply no_stop_iff in Sp as [Ol Nl].
    replace (length (z ++ B ">") - 1) with (length z) by (rewrite app_length; cbn; lia). replace (length z + 1) with (length (z ++ B ">")) by (rewrite app_length; reflexivity).
    rewrite skipn_app_exact. rewrite <- app_assoc, firstn_app_exact. rewrite one_line_app in O.
    rewrite <- (app_nil_r rest) in *. apply cs_last; [|tauto|rewrite app_nil_r in *; tauto..|left; reflexivity].
    rewrite <- app_assoc in C. intros a Ca Oa. assert (K := C a Ca). destruct Ca as (w & b & _ & Ea). rewrite app_length in K. cbn in K. rewrite app_nil_r in *.
    apply Nl. assert (Z := f_equal (fun s => nth_error s (length a)) Ea). cbn in Z.
    replace (z ++ ">"%byte :: rest) with ((z ++ B ">") ++ rest) in Z by (rewrite <- !app_assoc; reflexivity).
    rewrite nth_error_app2 in Z by (rewrite !app_length; cbn; lia). rewrite (nth_error_app2 a), Nat.sub_diag in Z by lia. cbn in Z. eapply nth_error_In; exact Z.
Qed.

Lemma name_end_iff d n t : chat_parts d n t <-> exists i off, name_end (S (length d)) d 0 = Ok (i, off) /\ n = firstn i d /\ t = skipn (i + off) d.
Proof.
  destruct d as [|c d].
  - split.
    + intros H. exists 0, 0. remember (@nil byte) as d eqn:Ed.
      destruct H as [n w t _ _ _|n l rest _ _ _ _ _ _|n _ _|p q n c t _ _ _ _ _|]; try (destruct n; discriminate Ed); try (destruct p; discriminate Ed). auto.
    + intros (i & off & H & -> & ->). injection H as <- <-. constructor.
  - split; [apply name_end_reads; discriminate|]. intros (i & off & H & -> & ->). apply (name_end_parts (S (length (c :: d))) [] (c :: d)); [lia|discriminate|split; auto|now left|cbn; lia|exact H].
Qed.

Lemma chat_reads dec data m : chat_unmarshal dec chat0 data = (m, Ok tt) <-> chat_read dec data m.
Proof.
  assert (P : forall n d, chat_text dec (mk_chat n []) d = (m, Ok tt) <-> exists t, m = mk_chat n t /\ str_read dec d t).
  { intros n d. unfold chat_text. destruct (string_unmarshal dec d) as [t|e|] eqn:E; split; try discriminate.
    - intros [= <-]. exists t. split; [reflexivity|]. now apply str_iff.
    - intros (t' & -> & H). apply str_iff in H. rewrite E in H. injection H as ->. reflexivity.
    - intros (t' & -> & H). apply str_iff in H. congruence.
    - intros (t' & -> & H). apply str_iff in H. congruence. }
  split.
  - intros H. destruct data as [|c d].
    + apply (P [] []) in H as (t & -> & H). apply cr_plain; [intros [r X]; discriminate|exact H].
    + cbn [chat_unmarshal] in H. destruct (beq_spec c "<") as [->|N].
      * destruct (name_end (S (length d)) d 0) as [[i off]|e|] eqn:E; try discriminate. destruct (max_name <? _)%nat; [discriminate|].
        destruct (name_unmarshal dec (firstn i d)) as [sn|e|] eqn:En; try discriminate. apply P in H as (t & -> & H). apply name_iff in En.
        apply (cr_named dec d (firstn i d) (skipn (i + off) d)); [|exact En|exact H]. apply name_end_iff. eauto.
      * apply (P [] (c :: d)) in H as (t & -> & H). apply cr_plain; [intros [r X]; injection X as -> _; contradiction|exact H].
  - intros H. destruct H as [data t N H|d n t name text Pa Hn Ht].
    + assert (K : chat_text dec (mk_chat [] []) data = (mk_chat [] t, Ok tt)).
      { unfold chat_text. apply str_iff in H. rewrite H. reflexivity. }
      destruct data as [|c d]; [exact K|]. cbn [chat_unmarshal]. destruct (beq_spec c "<") as [->|_]; [|exact K]. exfalso. apply N. exists d. reflexivity.
    + apply name_end_iff in Pa as (i & off & E & -> & ->). cbn [app chat_unmarshal]. change (B "<" ++ d) with ("<"%byte :: d). cbn [chat_unmarshal]. change (beq "<" "<") with true. cbv iota. rewrite E.
      assert (Hn' := Hn). apply name_iff in Hn. destruct (Nat.ltb_spec max_name (length (firstn i d))) as [L|_].
      { exfalso. destruct Hn' as [L' _]. unfold max_name in L. lia. }
      rewrite Hn. unfold chat_text. apply str_iff in Ht. rewrite Ht. reflexivity.
Qed.

Lemma pm_reads dec data m : pm_unmarshal dec pm0 data = (m, Ok tt) <-> pm_read dec data m.
Proof.
  split.
  - intros H. unfold pm_unmarshal in H. repeat head_step H. injection H as <-. eapply pr; eassumption.
  - intros []. unfold pm_unmarshal. repeat back_step. reflexivity.
Qed.
Lemma mcto_reads dec data m : mcto_unmarshal dec mcto0 data = (m, Ok tt) <-> mcto_read dec data m.
Proof.
  split.
  - intros H. unfold mcto_unmarshal in H. repeat head_step H. injection H as <-. eapply mr; eassumption.
  - intros []. unfold mcto_unmarshal. repeat back_step. reflexivity.
Qed.
Lemma rctm_reads dec data m : rctm_unmarshal dec rctm0 data = (m, Ok tt) <-> rctm_read dec data m.
Proof.
  split.
  - intros H. unfold rctm_unmarshal in H. repeat head_step H. injection H as <-. eapply rmr; eassumption.
  - intros []. unfold rctm_unmarshal. repeat back_step. reflexivity.
Qed.

(** ** Connection requests *)

Lemma last_is_true c s : last_is c s = true -> s = drop_last s ++ [c].
Proof.
  destruct s as [|x s _] using rev_ind; [discriminate|]. rewrite last_is_app, drop_last_app. intros H. apply beq_true in H. now subst.
Qed.
Lemma ctm_reads dec data m : ctm_unmarshal dec ctm0 data = (m, Ok tt) <-> ctm_read dec data m.
Proof.
  split.
  - intros H. unfold ctm_unmarshal in H. head_step H. head_step H. cbv zeta in H.
    assert (K : exists addr src, ((exists s, first (B " ") l0 addr s /\ name_read dec s src) \/ (~ In " "%byte l0 /\ addr = l0 /\ src = [])) /\
      (let '(m, addr) := if last_is "S" addr then (mk_ctm a src [] 0 true, drop_last addr) else (mk_ctm a src [] 0 false, addr) in
       let '(m, addr) := if last_is "N" addr then (set_ct_kind m 1, drop_last addr)
                          else if last_is "R" addr then (set_ct_kind m 2, drop_last addr)
                          else (m, addr) in
        set_ct_address m addr) = m).
    { destruct (cut " " l0) as [[addr s]|] eqn:C.
      - head_step H. exists addr, a0. split; [left; exists s; split; [now apply first_cut in C|assumption]|].
        destruct (last_is "S" addr); (destruct (last_is "N" _); [|destruct (last_is "R" _)]); injection H as <-; reflexivity.
      - apply cut_none in C. exists l0, []. split; [right; auto|].
        destruct (last_is "S" l0); (destruct (last_is "N" _); [|destruct (last_is "R" _)]); injection H as <-; reflexivity. }
    destruct K as (addr & src & Src & <-).
    assert (G : forall secure a', addr = a' ++ (if secure : bool then B "S" else []) -> (secure = false -> ~ ends_in "S" addr) ->
      ctm_read dec data (let '(m0, addr0) := if last_is "N" a' then (mk_ctm a src [] 1 secure, drop_last a') else if last_is "R" a' then (mk_ctm a src [] 2 secure, drop_last a')
         else (mk_ctm a src [] 0 secure, a') in set_ct_address m0 addr0)).
    { intros secure a' Ea Sa. destruct (last_is "N" a') eqn:LN; [|destruct (last_is "R" a') eqn:LR].
      - apply last_is_true in LN. eapply cmr; [exact E|exact E0|exact Src| |exact Sa|tauto]. rewrite LN, <- app_assoc in Ea. exact Ea.
      - apply last_is_true in LR. eapply cmr; [exact E|exact E0|exact Src| |exact Sa|tauto]. rewrite LR, <- app_assoc in Ea. exact Ea.
      - apply last_is_false in LN, LR. eapply cmr; [exact E|exact E0|exact Src|exact Ea|exact Sa|tauto]. }
    destruct (last_is "S" addr) eqn:LS.
    + apply last_is_true in LS. apply (G true (drop_last addr)); [exact LS|discriminate].
    + apply last_is_false in LS. apply (G false addr); [symmetry; apply app_nil_r|auto].
  - intros [data' t r addr targ src a kind secure F Nt Src -> Sec Kind]. unfold ctm_unmarshal. repeat back_step.
    assert (LS : last_is "S" (a ++ kind_letter kind ++ (if secure then B "S" else [])) = secure).
    { destruct secure; [rewrite app_assoc; apply last_is_app|]. apply last_is_false. auto. }
    assert (DS : (if secure then drop_last (a ++ kind_letter kind ++ (if secure then B "S" else [])) else a ++ kind_letter kind ++ (if secure then B "S" else [])) = a ++ kind_letter kind).
    { destruct secure; [rewrite app_assoc; apply drop_last_app|now rewrite app_nil_r]. }
    remember (a ++ kind_letter kind ++ (if secure then B "S" else [])) as addr eqn:Ea. clear Ea.
    assert (Fin : forall src', (let '(m, addr) := if last_is "S" addr then (set_ct_secure (mk_ctm targ src' [] 0 false) true, drop_last addr) else (mk_ctm targ src' [] 0 false, addr) in
        let m := set_ct_kind m 0 in
        let '(m, addr) := if last_is "N" addr then (set_ct_kind m 1, drop_last addr)
                          else if last_is "R" addr then (set_ct_kind m 2, drop_last addr)
                          else (m, addr) in
        (set_ct_address m addr, @Ok unit tt)) = (mk_ctm targ src' a kind secure, Ok tt)).
    { intros src'. rewrite LS. assert (Dr : drop_last addr = a ++ kind_letter kind \/ secure = false) by (destruct secure; auto).
      assert (K : forall b, (let m := set_ct_kind (mk_ctm targ src' [] 0 b) 0 in
        let '(m, addr) := if last_is "N" (a ++ kind_letter kind) then (set_ct_kind m 1, drop_last (a ++ kind_letter kind))
                          else if last_is "R" (a ++ kind_letter kind) then (set_ct_kind m 2, drop_last (a ++ kind_letter kind))
                          else (m, (a ++ kind_letter kind)) in
        (set_ct_address m addr, @Ok unit tt)) = (mk_ctm targ src' a kind b, Ok tt)).
      { intros b. destruct Kind as [(-> & N1 & N2)|[->| ->]].
        - cbn [kind_letter Z.eqb]. rewrite app_nil_r. apply last_is_false in N1, N2. rewrite N1, N2. reflexivity.
        - change (kind_letter 1) with ["N"%byte]. rewrite last_is_app, drop_last_app. reflexivity.
        - change (kind_letter 2) with ["R"%byte]. rewrite !last_is_app, drop_last_app. reflexivity. }
      destruct secure; rewrite DS; apply K. }
    destruct Src as [(s & F2 & Ns)|(Ni & -> & ->)].
    + repeat back_step. apply Fin.
    + apply cut_none in Ni. rewrite Ni. apply Fin.
Qed.
