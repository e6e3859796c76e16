(** Lemmas about ADC escaping. *)
From Verif Require Import Base BaseFacts AdcText SpecAdc.

Lemma escape_app a b : escape (a ++ b) = escape a ++ escape b.
Proof. apply flat_map_app. Qed.

Lemma escape_escaped s : escaped s (escape s).
Proof.
  induction s as [|c s IH]; [constructor|]. unfold escape in *. cbn [flat_map]. unfold escape_byte at 1.
  destruct (beq_spec c "\"); [subst; now constructor|].
  destruct (beq_spec c " "); [subst; now constructor|].
  destruct (beq_spec c x0a); [subst; now constructor|].
  now constructor.
Qed.

Lemma escaped_escape s e : escaped s e -> e = escape s.
Proof.
  induction 1; subst; try reflexivity. change (escape (c :: s)) with (escape_byte c ++ escape s). unfold escape_byte.
  rewrite (proj2 (beq_false _ _) H), (proj2 (beq_false _ _) H0), (proj2 (beq_false _ _) H1). reflexivity.
Qed.

Lemma unescape_pair c d t x : an_escape d = Some x -> c = "\"%byte -> unescape (c :: d :: t) = x :: unescape t.
Proof.
  intros A ->. unfold an_escape in A. cbn [unescape]. rewrite beq_refl.
  destruct (beq d "s"); [injection A as <-; reflexivity|]. destruct (beq d "n"); [injection A as <-; reflexivity|].
  destruct (beq d "\"); [injection A as <-; reflexivity|discriminate].
Qed.

Lemma unescape_plain c t : c <> "\"%byte -> unescape (c :: t) = c :: unescape t.
Proof.
  intros N. destruct t as [|d t]; [reflexivity|]. cbn [unescape]. now rewrite (proj2 (beq_false _ _) N).
Qed.

Lemma unescape_odd e : (forall c d t, e = c :: t -> an_escape c <> Some d) -> unescape ("\"%byte :: e) = "\"%byte :: unescape e.
Proof.
  intros N. destruct e as [|d t]; [reflexivity|]. specialize (N d). unfold an_escape in N.
  change (unescape ("\"%byte :: d :: t)) with (if beq "\" "\" then
            if beq d "s" then " "%byte :: unescape t
            else if beq d "n" then x0a :: unescape t
            else if beq d "\" then "\"%byte :: unescape t
            else "\"%byte :: unescape (d :: t)
          else "\"%byte :: unescape (d :: t)).
  rewrite beq_refl.
  destruct (beq d "s"); [exfalso; eapply N; reflexivity|]. destruct (beq d "n"); [exfalso; eapply N; reflexivity|].
  destruct (beq d "\"); [exfalso; eapply N; reflexivity|]. reflexivity.
Qed.

Lemma denotes_unescape e s : denotes_text e s -> s = unescape e.
Proof.
  induction 1; subst.
  - reflexivity.
  - now rewrite (unescape_pair _ _ _ _ H).
  - now rewrite unescape_odd.
  - now rewrite unescape_plain.
Qed.

Lemma unescape_denotes_len : forall n e, length e <= n -> denotes_text e (unescape e).
Proof.
  induction n; intros e L.
  - destruct e; [constructor|cbn in L; lia].
  - destruct e as [|c e]; [constructor|]. cbn in L.
    destruct (byte_eq_dec c "\") as [->|N].
    + destruct e as [|d t].
      * change (unescape ["\"%byte]) with ["\"%byte]. apply dt_odd; [congruence|constructor].
      * destruct (an_escape d) as [x|] eqn:A.
        { rewrite (unescape_pair _ _ _ _ A eq_refl). constructor; [assumption|apply IHn; cbn in L; lia]. }
        assert (O : forall c x t', d :: t = c :: t' -> an_escape c <> Some x) by (intros ? ? ? [= <- <-]; congruence).
        rewrite (unescape_odd _ O). apply dt_odd; [assumption|apply IHn; cbn in L |- *; lia].
    + rewrite (unescape_plain _ _ N). constructor; [assumption|apply IHn; lia].
Qed.
Lemma unescape_denotes e : denotes_text e (unescape e).
Proof. apply unescape_denotes_len with (n := length e). lia. Qed.

Lemma escaped_denotes s e : escaped s e -> denotes_text e s.
Proof. induction 1; try (constructor; [reflexivity|assumption]). constructor. now constructor. Qed.

Lemma unescape_escape s : unescape (escape s) = s.
Proof. symmetry. apply denotes_unescape, escaped_denotes, escape_escaped. Qed.

Lemma escaped_notin s e : escaped s e -> ~ In " "%byte e /\ ~ In x0a e.
Proof. induction 1; cbn; intuition (try congruence; try discriminate). Qed.
Lemma escape_no_sp s : ~ In " "%byte (escape s).
Proof. apply (escaped_notin s), escape_escaped. Qed.
Lemma escape_no_nl s : ~ In x0a (escape s).
Proof. apply (escaped_notin s), escape_escaped. Qed.

(** A byte that is not part of an escape occurs in the escaped text only if in the original. *)
Lemma escape_in c s : In c (escape s) -> c <> "\"%byte -> c <> "s"%byte -> c <> "n"%byte -> In c s.
Proof.
  intros I. apply in_flat_map in I. destruct I as (x & X & I). unfold escape_byte in I.
  destruct (beq_spec x "\"); [subst; cbn in I; intuition congruence|].
  destruct (beq_spec x " "); [subst; cbn in I; intuition congruence|].
  destruct (beq_spec x x0a); [subst; cbn in I; intuition congruence|].
  destruct I as [<-|[]]. intros; assumption.
Qed.

Lemma escape_nil s : escape s = [] -> s = [].
Proof. intros H. rewrite <- (unescape_escape s), H. reflexivity. Qed.

Lemma escape_inj a b : escape a = escape b -> a = b.
Proof. intros H. rewrite <- (unescape_escape a), <- (unescape_escape b). now f_equal. Qed.
