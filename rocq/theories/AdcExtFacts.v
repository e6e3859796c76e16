(** Facts about file extension groups, for C76. *)
From Verif Require Import Base BaseFacts Utf8 Utf8Facts AdcExt SpecExt.
From Coq Require Import ZifyBool ZifyNat ZifyN.

Lemma split_byte_app' c s : forall a, split_byte c (a ++ c :: s) = split_byte c a ++ split_byte c s.
Proof.
  induction a as [|x a IH]; cbn [app split_byte]; [now rewrite beq_refl|].
  rewrite IH. destruct (beq x c); [reflexivity|]. pose proof (split_byte_not_nil c a). destruct (split_byte c a); [congruence|reflexivity].
Qed.

Lemma words c e l : e <> [] -> (exists a b, [c] ++ l ++ [c] = a ++ [c] ++ e ++ [c] ++ b) -> ~ In c e -> In e (split_byte c l).
Proof.
  intros He (a & b & H) Hc. apply (f_equal (split_byte c)) in H. cbn [app] in H.
  rewrite split_byte_app', split_byte_app', (split_byte_notin c e Hc) in H.
  change (c :: l ++ [c]) with ([] ++ c :: l ++ [c]) in H. rewrite !split_byte_app' in H. cbn [split_byte] in H.
  assert (I : In e ([[]] ++ split_byte c l ++ [[]])) by (rewrite H, in_app_iff; right; now left).
  rewrite !in_app_iff in I. destruct I as [[I|[]]|[I|[I|[]]]]; congruence || exact I.
Qed.

Lemma group_tables_agree : forallb (fun p => forallb (fun e => Z.eqb (group_of ext_groups e) (fst p)) (split_byte " "%byte (snd p))) ext_list = true.
Proof. vm_compute. reflexivity. Qed.

Lemma group_of_in_group g e : in_group g e -> group_of ext_groups e = g.
Proof.
  intros (l & a & b & I & W & N & E). pose proof group_tables_agree as T.
  rewrite forallb_forall in T. specialize (T _ I). rewrite forallb_forall in T. apply Z.eqb_eq, T. apply words; [exact E|now exists a, b|exact N].
Qed.

Lemma group_of_in m e : group_of m e <> 0%Z -> In (e, group_of m e) m.
Proof.
  induction m as [|[x g] m IH]; cbn [group_of]; [congruence|]. destruct (bytes_eqb x e) eqn:E.
  - intros _. left. apply bytes_eqb_true in E. now subst.
  - intros H. right. auto.
Qed.

(** the word [e] found by looking for it *)
Fixpoint find_word (e l : bytes) : option (bytes * bytes) :=
  if has_prefix (B " " ++ e ++ B " ") l then Some ([], skipn (length e + 2) l)
  else match l with [] => None | x :: t => option_map (fun p => (x :: fst p, snd p)) (find_word e t) end.

Lemma in_group_dec g e l a b : In (g, l) ext_list -> B " " ++ l ++ B " " = a ++ B " " ++ e ++ B " " ++ b -> contains_byte " "%byte e = false -> e <> [] -> in_group g e.
Proof. intros I W N E. exists l, a, b. repeat split; auto. now apply contains_byte_false. Qed.

Lemma table_in_group : Forall (fun p => in_group (snd p) (fst p)) ext_groups.
Proof.
  repeat (apply Forall_cons; [
    match goal with |- in_group (snd (?e, ?g)) (fst (?e, ?g)) =>
      let l := eval vm_compute in (match find (fun p => Z.eqb (fst p) g) ext_list with Some p => snd p | None => [] end) in
      let r := eval vm_compute in (match find_word e (B " " ++ l ++ B " ") with Some p => p | None => ([], []) end) in
      match r with (?a, ?b) => apply (in_group_dec g e l a b); [vm_compute; tauto|vm_compute; reflexivity|vm_compute; reflexivity|discriminate] end
    end|]).
  constructor.
Qed.

Lemma group_of_spec e g : g <> 0%Z -> (group_of ext_groups e = g <-> in_group g e).
Proof.
  intros G. split; [|apply group_of_in_group]. intros <-. apply group_of_in in G.
  exact (proj1 (Forall_forall _ _) table_in_group _ G).
Qed.

Lemma in_group_pos g e : in_group g e -> (0 < g)%Z.
Proof. intros (l & a & b & I & _). cbn in I. repeat (destruct I as [[= <- _]|I]; [lia|]). destruct I. Qed.

Lemma in_group_ascii g e : in_group g e -> forallb (fun b => (b2n b <? 128)%N) e = true.
Proof.
  intros I. pose proof (in_group_pos _ _ I) as P. apply group_of_in_group in I. assert (J : In (e, g) ext_groups) by (rewrite <- I; apply group_of_in; lia).
  assert (T : forallb (fun p => forallb (fun b => (b2n b <? 128)%N) (fst p)) ext_groups = true) by (vm_compute; reflexivity).
  rewrite forallb_forall in T. exact (T _ J).
Qed.

(** ** Lower case *)

Definition fold_rune (ulow : N -> N) (r : N) : N := if (r <? 128)%N then lower_ascii r else ulow r.

Lemma fold_rune_spec ulow r r' : lower_rune ulow r r' <-> fold_rune ulow r = r'.
Proof.
  unfold lower_rune, fold_rune, lower_ascii. destruct (r <? 128)%N eqn:E.
  - destruct ((65 <=? r) && (r <=? 90))%N eqn:F; lia.
  - lia.
Qed.

Lemma map_runes_valid f : forall rs n, Forall (fun r => is_scalar r = true) rs -> length (flat_map encode_scalar rs) <= n ->
  map_runes f n (flat_map encode_scalar rs) = flat_map (fun r => encode_rune (f r)) rs.
Proof.
  induction rs as [|r rs IH]; intros n H L; [destruct n; reflexivity|]. apply Forall_cons_iff in H. destruct H as [Hr H].
  cbn [flat_map] in *. pose proof (encode_scalar_not_nil r) as N. rewrite app_length in L.
  destruct (encode_scalar r) as [|a x] eqn:E; [congruence|]. cbn [length] in L. destruct n as [|n]; [lia|]. cbn [app map_runes].
  change (a :: x ++ flat_map encode_scalar rs) with ((a :: x) ++ flat_map encode_scalar rs). unfold decode_rune.
  rewrite <- E, decode1_encode by exact Hr. cbv beta iota. rewrite skipn_app_exact, IH; [reflexivity|exact H|lia].
Qed.

Lemma encode_ascii_inv r s e : forallb (fun b => (b2n b <? 128)%N) e = true -> encode_rune r ++ s = e -> exists b e', e = b :: e' /\ r = b2n b /\ s = e'.
Proof.
  intros A H. destruct (encode_rune_scalar r) as (r' & Hr & E). pose proof (encode_scalar_not_nil r') as N. rewrite E in H.
  destruct (encode_scalar r') as [|b x] eqn:F; [congruence|]. subst e. cbn [app forallb] in A. apply andb_prop in A. destruct A as [A _].
  assert (G : encode_scalar r' = [b]) by (apply encode_scalar_no_ascii; [exact Hr|rewrite F; now left|exact A]). rewrite F in G. injection G as ->.
  exists b, s. split; [reflexivity|]. split; [|reflexivity].
  assert (R : r' = b2n b).
  { pose proof (decode1_encode r' [] Hr) as D. rewrite F in D. cbn [app decode1] in D. unfold is_ascii in A. rewrite A in D. now injection D. }
  unfold encode_rune in E. destruct (is_scalar r) eqn:S1.
  - pose proof (decode1_encode r [] S1) as D. rewrite E in D. cbn [app decode1] in D. rewrite A in D. now injection D.
  - unfold rune_error, encode_scalar in E. cbn in E. discriminate.
Qed.

Lemma map_runes_ascii f : (128 <= f rune_error)%N -> forall n s e, length s <= n -> forallb (fun b => (b2n b <? 128)%N) e = true -> map_runes f n s = e ->
  exists rs, Forall (fun r => is_scalar r = true) rs /\ s = flat_map encode_scalar rs /\ map f rs = map b2n e.
Proof.
  intros HF. induction n as [|n IH]; intros s e L A M; (destruct s as [|a s1]; [cbn in M; subst e; exists []; repeat split; constructor|]); [cbn in L; lia|].
  cbn [map_runes] in M. unfold decode_rune in M. destruct (decode1 (a :: s1)) as [[r k]|] eqn:D.
  - apply decode1_sound in D. destruct D as (Hr & Hs & Hk). destruct (encode_ascii_inv _ _ _ A M) as (b & e' & -> & Eb & M'). cbn [forallb] in A. apply andb_prop in A. destruct A as [_ A].
    destruct (IH (skipn k (a :: s1)) e') as (rs & R1 & R2 & R3); [|exact A|exact M'|].
    + rewrite skipn_length. pose proof (encode_scalar_not_nil r). destruct (encode_scalar r); [congruence|]. cbn [length] in *. lia.
    + exists (r :: rs). split; [now constructor|]. cbn [flat_map map]. rewrite <- R2, R3, Eb. split; [exact Hs|reflexivity].
  - destruct (encode_ascii_inv _ _ _ A M) as (b & e' & -> & Eb & _). cbn [forallb] in A. apply andb_prop in A. destruct A as [A _]. lia.
Qed.

Lemma ascii_runes : forall s, forallb (fun b => (b2n b <? 128)%N) s = true -> s = flat_map encode_scalar (map b2n s) /\ Forall (fun r => is_scalar r = true) (map b2n s).
Proof.
  induction s as [|b s IH]; intros H; [split; constructor|]. cbn [forallb] in H. apply andb_prop in H. destruct H as [H1 H2]. destruct (IH H2) as [J1 J2].
  cbn [map flat_map]. split.
  - unfold encode_scalar at 1. rewrite H1, n2b_b2n. cbn [app]. now rewrite <- J1.
  - constructor; [|exact J2]. unfold is_scalar. lia.
Qed.

Lemma to_lower_runes ulow rs e : Forall (fun r => is_scalar r = true) rs -> map (fold_rune ulow) rs = map b2n e -> forallb (fun b => (b2n b <? 128)%N) e = true ->
  to_lower ulow (flat_map encode_scalar rs) = e.
Proof.
  intros Hr M A. assert (G : flat_map (fun r => encode_rune (fold_rune ulow r)) rs = e).
  { clear Hr. revert e M A. induction rs as [|r rs IH]; intros [|b e] M A; try discriminate M; [reflexivity|]. injection M as M1 M2. cbn [forallb] in A. apply andb_prop in A. destruct A as [A1 A2].
    cbn [flat_map]. rewrite M1, (IH e M2 A2). unfold encode_rune, is_scalar, encode_scalar. rewrite A1. replace (b2n b <? 55296)%N with true by lia. cbn [orb app]. now rewrite n2b_b2n. }
  unfold to_lower. destruct (forallb _ (flat_map encode_scalar rs)) eqn:F.
  - destruct (ascii_runes _ F) as [J1 J2]. assert (E : map b2n (flat_map encode_scalar rs) = rs).
    { clear - Hr F. induction Hr as [|r rs Hr H IH]; [reflexivity|]. cbn [flat_map] in *. rewrite forallb_app in F. apply andb_prop in F. destruct F as [F1 F2].
      rewrite map_app, (IH F2). destruct (encode_scalar r) as [|b x] eqn:E; [now apply encode_scalar_not_nil in E|].
      cbn [forallb] in F1. apply andb_prop in F1. destruct F1 as [F1 _].
      assert (G : encode_scalar r = [b]) by (apply encode_scalar_no_ascii; [exact Hr|rewrite E; now left|exact F1]). rewrite E in G. injection G as ->.
      pose proof (decode1_encode r [] Hr) as D. rewrite E in D. cbn [app decode1] in D. rewrite F1 in D. injection D as D. cbn. now rewrite D. }
    rewrite <- G. rewrite <- E at 2. clear - F. set (s := flat_map encode_scalar rs) in *. clearbody s. induction s as [|b s IH]; [reflexivity|]. cbn [forallb] in F. apply andb_prop in F. destruct F as [F1 F2].
    cbn [map flat_map]. rewrite (IH F2). unfold fold_rune. rewrite F1. unfold encode_rune, is_scalar, encode_scalar, lower_ascii.
    destruct ((65 <=? b2n b) && (b2n b <=? 90))%N eqn:K.
    + replace (b2n b + 32 <? 55296)%N with true by lia. replace (b2n b + 32 <? 128)%N with true by lia. reflexivity.
    + replace (b2n b <? 55296)%N with true by lia. rewrite F1. reflexivity.
  - change (fun r => if (r <? 128)%N then lower_ascii r else ulow r) with (fold_rune ulow). rewrite map_runes_valid; [exact G|exact Hr|lia].
Qed.

Lemma Forall2_map_eq {A} (f : A -> N) : forall rs (e : bytes), Forall2 (fun r b => f r = b2n b) rs e <-> map f rs = map b2n e.
Proof.
  intros rs e. split.
  - induction 1; cbn; congruence.
  - revert e. induction rs as [|r rs IH]; intros [|b e] H; try discriminate H; constructor; injection H; auto.
Qed.

Lemma to_lower_spells ulow ext e : ulow rune_error = rune_error -> forallb (fun b => (b2n b <? 128)%N) e = true -> (to_lower ulow ext = e <-> spells ulow ext e).
Proof.
  intros U A. assert (S : forall rs, Forall2 (fun r b => lower_rune ulow r (b2n b)) rs e <-> map (fold_rune ulow) rs = map b2n e).
  { intros rs. rewrite <- Forall2_map_eq. clear. split; (induction 1; constructor; try assumption; now apply fold_rune_spec). }
  split.
  - unfold to_lower. destruct (forallb _ ext) eqn:F.
    + intros <-. destruct (ascii_runes _ F) as [J1 J2]. exists (map b2n ext). split; [exact J2|]. split; [exact J1|].
      clear - F. induction ext as [|b ext IH]; [constructor|]. cbn [forallb] in F. apply andb_prop in F. destruct F as [F1 F2]. cbn [map]. constructor; [|exact (IH F2)].
      apply fold_rune_spec. unfold fold_rune. rewrite F1. rewrite b2n_n2b; [reflexivity|]. unfold lower_ascii. destruct (_ && _)%bool; lia.
    + intros M. change (fun r => if (r <? 128)%N then lower_ascii r else ulow r) with (fold_rune ulow) in M.
      destruct (map_runes_ascii (fold_rune ulow)) with (n := length ext) (s := ext) (e := e) as (rs & R1 & R2 & R3); auto.
      { unfold fold_rune. change (rune_error <? 128)%N with false. cbv iota. rewrite U. unfold rune_error. lia. }
      exists rs. split; [exact R1|]. split; [exact R2|]. now apply S.
  - intros (rs & R1 & R2 & R3). rewrite R2. apply to_lower_runes; auto. now apply S.
Qed.

Lemma extension_cut name : exists ext, extension name ext /\ ext = match last_cut "."%byte name with Some (_, e) => e | None => name end.
Proof.
  eexists. split; [|reflexivity]. destruct (last_cut "."%byte name) as [[a e]|] eqn:E.
  - apply last_cut_spec in E. destruct E as [-> N]. split; [exact N|]. right. now exists a.
  - apply last_cut_none in E. split; [exact E|]. now left.
Qed.
Lemma extension_unique name ext : extension name ext -> ext = match last_cut "."%byte name with Some (_, e) => e | None => name end.
Proof.
  intros [N [->|(a & ->)]].
  - now rewrite (proj2 (last_cut_none _ _) N).
  - change (B "." ++ ext) with ("."%byte :: ext). now rewrite last_cut_app.
Qed.

Lemma ext_matches_spec ulow t name : ulow rune_error = rune_error ->
  (ext_matches ulow t name = true <-> t = 0%Z \/ exists ext e g, extension name ext /\ spells ulow ext e /\ in_group g e /\ Z.land t g <> 0%Z).
Proof.
  intros U. unfold ext_matches. destruct (t =? 0)%Z eqn:T; [split; [left; lia|reflexivity]|].
  destruct (extension_cut name) as (ext & X & EX). rewrite <- EX. unfold ext_has. split.
  - intros H. right. set (g := group_of ext_groups (to_lower ulow ext)) in *.
    assert (G : g <> 0%Z) by (intros G; rewrite G, Z.land_0_r in H; discriminate).
    assert (I : in_group g (to_lower ulow ext)) by (apply group_of_spec; [exact G|reflexivity]).
    exists ext, (to_lower ulow ext), g. split; [exact X|]. split; [apply to_lower_spells; [exact U|exact (in_group_ascii _ _ I)|reflexivity]|]. split; [exact I|]. intros Z0. rewrite Z0 in H. discriminate.
  - intros [->|(ext' & e & g & X' & Sp & I & L)]; [discriminate T|].
    rewrite (extension_unique _ _ X'), <- EX in Sp. apply (to_lower_spells ulow ext e U (in_group_ascii _ _ I)) in Sp. rewrite Sp, (group_of_in_group _ _ I).
    destruct (Z.land t g =? 0)%Z eqn:E; [lia|reflexivity].
Qed.
