(** Lemmas about html.UnescapeString. *)
From Verif Require Import Base BaseFacts Utf8 Utf8Facts HtmlTable Html.
#[local] Opaque entity1 entity2.

Lemma prefix_entity_S j name :
  prefix_entity (S j) name =
  match j with
  | O => None
  | S _ => match entity1 (firstn (S j) name) with
           | Some x => Some (encode_rune x, S (S j))
           | None => prefix_entity j name
           end
  end.
Proof. reflexivity. Qed.

Lemma unescape_entity_pos s : 1 <= snd (unescape_entity s).
Proof.
  unfold unescape_entity. destruct (length s <=? 1)%nat; [cbn; lia|].
  destruct (beq (nth 1 s x00) "#").
  - destruct (length s <=? 3)%nat; [cbn; lia|].
    destruct (num_loop _ _ _ _) as [x i] eqn:E. destruct (i <=? 3)%nat eqn:E3; cbn; [lia|].
    apply Nat.leb_gt in E3. lia.
  - assert (Hi : forall i t, i <= name_loop i t).
    { intros i t. revert i. induction t as [|c t IH]; intros i; cbn; [lia|].
      destruct (_ || _); [specialize (IH (S i)); lia|]. destruct (beq c ";"); lia. }
    pose proof (Hi 1 (skipn 1 s)) as H1.
    assert (Hp : forall j name r, prefix_entity j name = Some r -> 1 <= snd r).
    { intros j name r. induction j as [|j IH]; [discriminate|].
      rewrite prefix_entity_S. destruct j as [|j]; [discriminate|].
      destruct (entity1 (firstn (S (S j)) name)) as [x|]; [|exact IH].
      intros H. apply (f_equal (fun o => match o with Some p => snd p | None => 1 end)) in H.
      cbn in H. lia. }
    cbv zeta. destruct (firstn (name_loop 1 (skipn 1 s) - 1) (skipn 1 s)) as [|n0 name']; [cbn [snd]; lia|].
    destruct (entity1 (n0 :: name')); [cbn [snd]; lia|].
    destruct (entity2 (n0 :: name')) as [[x y]|]; [cbn [snd]; lia|].
    destruct (prefix_entity _ _) eqn:E; [|cbn [snd]; lia]. eapply Hp; eassumption.
Qed.

(** The result does not depend on the fuel once it covers the input. *)
Lemma html_unescape_fuel_enough f g s :
  length s <= f -> length s <= g -> html_unescape_fuel f s = html_unescape_fuel g s.
Proof.
  revert g s. induction f as [|f IH]; intros g s Hf Hg.
  - destruct s; [|cbn in Hf; lia]. now destruct g.
  - destruct g as [|g].
    + destruct s; [reflexivity|cbn in Hg; lia].
    + cbn [html_unescape_fuel]. destruct s as [|c t]; [reflexivity|]. cbn in Hf, Hg.
      destruct (beq c "&").
      * pose proof (unescape_entity_pos (c :: t)) as Hp.
        destruct (unescape_entity (c :: t)) as [o n]. cbn in Hp. f_equal.
        apply IH; rewrite skipn_length; cbn [length]; lia.
      * f_equal. apply IH; lia.
Qed.

Lemma html_unescape_nil : html_unescape [] = [].
Proof. reflexivity. Qed.

Lemma html_unescape_amp t :
  html_unescape ("&"%byte :: t) =
  fst (unescape_entity ("&"%byte :: t)) ++
  html_unescape (skipn (snd (unescape_entity ("&"%byte :: t))) ("&"%byte :: t)).
Proof.
  unfold html_unescape at 1. cbn [length html_unescape_fuel]. rewrite beq_refl.
  pose proof (unescape_entity_pos ("&"%byte :: t)) as Hp.
  destruct (unescape_entity ("&"%byte :: t)) as [o n]. cbn [fst snd] in *. f_equal.
  apply html_unescape_fuel_enough; rewrite skipn_length; cbn [length]; lia.
Qed.

Lemma html_unescape_other c t : c <> "&"%byte -> html_unescape (c :: t) = c :: html_unescape t.
Proof.
  intros H. unfold html_unescape at 1. cbn [length html_unescape_fuel].
  apply beq_false in H. rewrite H. reflexivity.
Qed.

Lemma html_unescape_id s : ~ In "&"%byte s -> html_unescape s = s.
Proof.
  induction s as [|c s IH]; intros H; [reflexivity|]. cbn in H.
  rewrite html_unescape_other by tauto. f_equal. apply IH. tauto.
Qed.

Lemma html_unescape_amp_ent t : html_unescape (B "&amp;" ++ t) = "&"%byte :: html_unescape t.
Proof.
  change (B "&amp;" ++ t) with ("&"%byte :: B "amp;" ++ t). rewrite html_unescape_amp.
  assert (E : unescape_entity ("&"%byte :: B "amp;" ++ t) = ([("&"%byte)], 5)) by (vm_compute; reflexivity).
  rewrite E. reflexivity.
Qed.

Lemma html_unescape_lt_ent t : html_unescape (B "&lt;" ++ t) = "<"%byte :: html_unescape t.
Proof.
  change (B "&lt;" ++ t) with ("&"%byte :: B "lt;" ++ t). rewrite html_unescape_amp.
  assert (E : unescape_entity ("&"%byte :: B "lt;" ++ t) = ([("<"%byte)], 4)) by (vm_compute; reflexivity).
  rewrite E. reflexivity.
Qed.

Lemma html_unescape_gt_ent t : html_unescape (B "&gt;" ++ t) = ">"%byte :: html_unescape t.
Proof.
  change (B "&gt;" ++ t) with ("&"%byte :: B "gt;" ++ t). rewrite html_unescape_amp.
  assert (E : unescape_entity ("&"%byte :: B "gt;" ++ t) = ([(">"%byte)], 4)) by (vm_compute; reflexivity).
  rewrite E. reflexivity.
Qed.

Lemma html_unescape_dollar_ent t : html_unescape (B "&#36;" ++ t) = "$"%byte :: html_unescape t.
Proof.
  change (B "&#36;" ++ t) with ("&"%byte :: B "#36;" ++ t). rewrite html_unescape_amp.
  assert (E : unescape_entity ("&"%byte :: B "#36;" ++ t) = ([("$"%byte)], 5)) by (vm_compute; reflexivity).
  rewrite E. reflexivity.
Qed.

Lemma html_unescape_pipe_ent t : html_unescape (B "&#124;" ++ t) = "|"%byte :: html_unescape t.
Proof.
  change (B "&#124;" ++ t) with ("&"%byte :: B "#124;" ++ t). rewrite html_unescape_amp.
  assert (E : unescape_entity ("&"%byte :: B "#124;" ++ t) = ([("|"%byte)], 6)) by (vm_compute; reflexivity).
  rewrite E. reflexivity.
Qed.
