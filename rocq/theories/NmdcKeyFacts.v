(** Facts about lock keys and extension sets. *)
From Verif Require Import Base BaseFacts NmdcChat NmdcHub SpecText SpecNmdc SpecFrame NmdcMsgFacts.
From Coq Require Import Lia Permutation Sorted.

(** ** Bytes *)

Lemma b2n_inj a b : b2n a = b2n b -> a = b.
Proof. intros H. rewrite <- (n2b_b2n a), <- (n2b_b2n b), H. reflexivity. Qed.
Lemma bxor_spec a b : is_xor a b (bxor a b).
Proof.
  assert (H : forall x, (fun a => forallb (fun b => (b2n (bxor a b) =? N.lxor (b2n a) (b2n b))%N) (map n2b (map N.of_nat (seq 0 256)))) x = true).
  { apply forall_byte. vm_compute. reflexivity. }
  specialize (H a). cbv beta in H. rewrite forallb_forall in H. specialize (H b).
  unfold is_xor. apply N.eqb_eq. apply H. apply in_map_iff. exists (b2n b). split; [apply n2b_b2n|].
  apply in_map_iff. exists (N.to_nat (b2n b)). split; [apply N2Nat.id|]. apply in_seq. pose proof (b2n_lt b). lia.
Qed.
Lemma is_xor_fun a b c c' : is_xor a b c -> is_xor a b c' -> c = c'.
Proof. unfold is_xor. intros H H'. apply b2n_inj. congruence. Qed.
Lemma swap_spec k : swapped k (swap_nibbles k).
Proof. unfold swapped. apply N.eqb_eq. revert k. apply (forall_byte (fun k => (b2n (swap_nibbles k) =? 16 * (b2n k mod 16) + b2n k / 16)%N)). vm_compute. reflexivity. Qed.
Lemma replace_spec c : replaced c (key_replace c).
Proof. destruct c; first [left; split; [cbv; tauto|reflexivity]|right; split; [cbv; intuition congruence|reflexivity]]. Qed.

(** ** The key of a lock *)

Lemma xor_chain_length l : forall p, length (xor_chain p l) = length l.
Proof. induction l; intros; cbn; [reflexivity|f_equal; auto]. Qed.
Lemma xor_chain_nth l : forall p i, i < length l -> is_xor (nth i l x00) (match i with O => p | S j => nth j l x00 end) (nth i (xor_chain p l) x00).
Proof.
  induction l as [|c l IH]; intros p i H; [cbn in H; lia|]. destruct i as [|i]; cbn [xor_chain nth]; [apply bxor_spec|].
  cbn in H. specialize (IH c i ltac:(lia)). destruct i; exact IH.
Qed.
Lemma rev_last (l : bytes) a b r : rev l = a :: b :: r -> nth (length l - 1) l x00 = a /\ nth (length l - 2) l x00 = b.
Proof.
  intros H. assert (E : l = rev (a :: b :: r)) by (rewrite <- H, rev_involutive; reflexivity). subst l. rewrite rev_length. cbn [length rev].
  rewrite <- app_assoc. cbn [app]. split; rewrite app_nth2; rewrite rev_length; try lia.
  - replace (S (S (length r)) - 1 - length r) with 1 by lia. reflexivity.
  - replace (S (S (length r)) - 2 - length r) with 0 by lia. reflexivity.
Qed.
Lemma Forall2_map_r {A B} (R : A -> B -> Prop) (f : A -> B) l : (forall a, R a (f a)) -> Forall2 R l (map f l).
Proof. intros H. induction l; cbn; constructor; auto. Qed.
Lemma flat_map_cm {A B} (f : A -> list B) l : flat_map f l = concat (map f l).
Proof. induction l; cbn; [reflexivity|rewrite IHl; reflexivity]. Qed.
Lemma custom_key_text m magic full : 2 <= length (lock_string m full) ->
  exists t, custom_key m magic full = Ok t /\ key_text magic (lock_string m full) t.
Proof.
  intros H. unfold custom_key. set (l := lock_string m full) in *. clearbody l.
  destruct l as [|c0 t] eqn:El; [cbn in H; lia|]. rewrite <- El in *.
  destruct (rev l) as [|a [|b r]] eqn:Er; try (apply (f_equal (@length _)) in Er; rewrite rev_length in Er; cbn in Er; lia).
  rewrite El. eexists. split; [reflexivity|].
  exists (bxor (bxor (bxor c0 a) b) magic :: xor_chain c0 t). eexists. eexists. split; [|split; [apply Forall2_map_r; intros; apply swap_spec|split; [apply Forall2_map_r; intros; apply replace_spec|apply flat_map_cm]]].
  split; [rewrite <- El; exact H|]. split; [cbn; f_equal; apply xor_chain_length|]. split.
  - intros i Hi. destruct i as [|i]; [lia|]. cbn [nth]. cbn [length] in Hi. pose proof (xor_chain_nth t c0 i ltac:(lia)) as X. cbn [Nat.sub]. rewrite Nat.sub_0_r. destruct i; exact X.
  - apply rev_last in Er. destruct Er as [E1 E2]. rewrite <- El, E1, E2, El. cbn [nth]. exists (bxor c0 a), (bxor (bxor c0 a) b). repeat split; apply bxor_spec.
Qed.
Lemma custom_key_panics m magic full : custom_key m magic full = Panic <-> length (lock_string m full) < 2.
Proof.
  split.
  - intros H. destruct (Nat.lt_ge_cases (length (lock_string m full)) 2) as [L|L]; [exact L|]. destruct (custom_key_text m magic full L) as (t & E & _). rewrite E in H. discriminate.
  - intros H. unfold custom_key. destruct (lock_string m full) as [|a [|b l]]; [reflexivity|reflexivity|cbn in H; lia].
Qed.

Lemma key_text_clean magic l t c : key_text magic l t -> In c reserved -> ~ In c t.
Proof.
  intros (k & s & ts & _ & _ & R & ->) Hc. induction R as [|x tx s ts Hx R IH]; cbn [concat]; [auto|]. intros K. apply in_app_iff in K. destruct K as [K|K]; [|auto].
  destruct Hx as [[Hr ->]|[Hr ->]].
  - unfold reserved in Hc, Hr. cbn [In] in Hc, Hr. destruct Hr as [<-|[<-|[<-|[<-|[<-|[<-|[]]]]]]]; cbv in K; cbv in Hc; intuition congruence.
  - destruct K as [->|[]]. contradiction.
Qed.

(** The lock can be recovered from the key bytes. *)
Lemma lxor_cancel a b c : N.lxor a b = c -> a = N.lxor c b.
Proof. intros <-. rewrite N.lxor_assoc, N.lxor_nilpotent, N.lxor_0_r. reflexivity. Qed.
Lemma chained_first magic l k : chained magic l k -> b2n (nth 0 l x00) = N.lxor (N.lxor (b2n (nth 0 k x00)) (b2n magic)) (b2n (nth (length k - 1) k x00)).
Proof.
  intros (L & E & C & x & y & X & Y & K). pose proof (C (length l - 1) ltac:(lia)) as Cl. rewrite E. unfold is_xor in *.
  rewrite Cl, K, Y, X. replace (length l - 1 - 1) with (length l - 2) by lia. generalize (b2n (nth 0 l x00)) (b2n (nth (length l - 1) l x00)) (b2n (nth (length l - 2) l x00)) (b2n magic). intros a b c d.
  apply N.bits_inj. intros i. rewrite !N.lxor_spec.
  destruct (N.testbit a i), (N.testbit b i), (N.testbit c i), (N.testbit d i); reflexivity.
Qed.
Lemma chained_inj magic l l' k : chained magic l k -> chained magic l' k -> l = l'.
Proof.
  intros H H'. pose proof (chained_first _ _ _ H) as F. pose proof (chained_first _ _ _ H') as F'. rewrite <- F in F'. clear F.
  destruct H as (L & E & C & _). destruct H' as (L' & E' & C' & _). apply b2n_inj in F'.
  apply nth_ext with (d := x00) (d' := x00); [congruence|]. intros n. induction n as [|n IH]; intros Hn; [symmetry; exact F'|].
  specialize (C (S n) ltac:(lia)). specialize (C' (S n) ltac:(lia)). cbn [Nat.sub] in *. rewrite Nat.sub_0_r in *. unfold is_xor in *.
  rewrite (IH ltac:(lia)) in C. rewrite C in C'. apply lxor_cancel in C'. rewrite N.lxor_assoc, N.lxor_nilpotent, N.lxor_0_r in C'. apply b2n_inj. exact C'.
Qed.
Lemma swapped_inj a b s : swapped a s -> swapped b s -> a = b.
Proof.
  unfold swapped. intros H H'. rewrite H in H'. apply b2n_inj. pose proof (b2n_lt a). pose proof (b2n_lt b).
  pose proof (N.div_mod (b2n a) 16 ltac:(lia)). pose proof (N.div_mod (b2n b) 16 ltac:(lia)).
  assert (b2n a / 16 < 16)%N by (apply N.div_lt_upper_bound; lia). assert (b2n b / 16 < 16)%N by (apply N.div_lt_upper_bound; lia). lia.
Qed.

(** Undoing the replacement, when the key bytes themselves do not look like one. *)
Lemma replaced_head c t : replaced c t -> exists x r, t = x :: r /\ (x = "/"%byte \/ ~ In c reserved /\ x = c /\ r = []).
Proof. intros [[_ ->]|[H ->]]; eexists; eexists; split; try reflexivity; [left; reflexivity|right; auto]. Qed.
Lemma raw_run (pat : bytes) : forall s ts r, ~ In "/"%byte pat -> Forall2 replaced s ts -> concat ts = pat ++ r -> exists s', s = pat ++ s'.
Proof.
  induction pat as [|p pat IH]; intros s ts r Hp R E; [exists s; reflexivity|].
  destruct R as [|c t s ts Hc R]; [discriminate|]. cbn [concat] in E. destruct (replaced_head _ _ Hc) as (x & q & -> & [->|(_ & -> & ->)]).
  - cbn [app] in E. injection E as <- _. exfalso. apply Hp. left. reflexivity.
  - cbn [app] in E. injection E as -> E. destruct (IH s ts r) as [s' ->]; [intros K; apply Hp; right; exact K|exact R|exact E|]. exists s'. reflexivity.
Qed.
Lemma app_eq_len {A} (a b c d : list A) : length a = length b -> a ++ c = b ++ d -> a = b /\ c = d.
Proof. revert b. induction a as [|x a IH]; intros [|y b] H E; cbn in *; try discriminate; [auto|]. injection E as -> E. injection H as H. destruct (IH b H E) as [-> ->]. auto. Qed.
Lemma digits_inj a b : In a reserved -> In b reserved -> [digit (b2n a / 100); digit (b2n a / 10 mod 10); digit (b2n a mod 10)] = [digit (b2n b / 100); digit (b2n b / 10 mod 10); digit (b2n b mod 10)] -> a = b.
Proof.
  unfold reserved. cbn [In]. intros [<-|[<-|[<-|[<-|[<-|[<-|[]]]]]]] [<-|[<-|[<-|[<-|[<-|[<-|[]]]]]]] H; try reflexivity; vm_compute in H; discriminate.
Qed.
Lemma substring_cons p c s : ~ substring p (c :: s) -> ~ substring p s.
Proof. intros H (a & r & ->). apply H. exists (c :: a), r. reflexivity. Qed.
Lemma replaced_inj : forall s s' ts ts', Forall2 replaced s ts -> Forall2 replaced s' ts' -> concat ts = concat ts' ->
  ~ substring (B "/%DCN") s -> ~ substring (B "/%DCN") s' -> s = s'.
Proof.
  assert (NR : ~ In "/"%byte (B "%DCN")) by (cbv; intuition congruence).
  induction s as [|c s IH]; intros s' ts ts' R R' E N N'; inversion R as [|? t ? ts0 Hc R0]; subst; inversion R' as [|c' t' s0' ts0' Hc' R0']; subst; clear R R'.
  - reflexivity.
  - cbn [concat] in E. destruct (replaced_head _ _ Hc') as (x & q & -> & _). discriminate.
  - cbn [concat] in E. destruct (replaced_head _ _ Hc) as (x & q & -> & _). discriminate.
  - cbn [concat] in E. pose proof (substring_cons _ _ _ N) as N1. pose proof (substring_cons _ _ _ N') as N1'.
    destruct Hc as [[Hc ->]|[Hc ->]], Hc' as [[Hc' ->]|[Hc' ->]].
    + rewrite <- !app_assoc in E. apply app_inv_head in E. apply app_eq_len in E; [|reflexivity]. destruct E as [E1 E]. apply digits_inj in E1; [|assumption|assumption]. apply app_inv_head in E. subst c'. f_equal. eapply IH; eassumption.
    + exfalso. rewrite <- !app_assoc in E. change (B "/%DCN") with ("/"%byte :: B "%DCN") in E. cbn [app] in E. injection E as <- E. symmetry in E.
      destruct (raw_run (B "%DCN") _ _ _ NR R0' E) as [s2 ->]. apply N'. exists [], s2. reflexivity.
    + exfalso. rewrite <- !app_assoc in E. change (B "/%DCN") with ("/"%byte :: B "%DCN") in E. cbn [app] in E. injection E as -> E.
      destruct (raw_run (B "%DCN") _ _ _ NR R0 E) as [s2 ->]. apply N. exists [], s2. reflexivity.
    + cbn [app] in E. injection E as -> E. f_equal. eapply IH; eassumption.
Qed.
Lemma Forall2_inj_r {A B} (R : A -> B -> Prop) l l' s : (forall a b x, R a x -> R b x -> a = b) -> Forall2 R l s -> Forall2 R l' s -> l = l'.
Proof. intros H F. revert l'. induction F as [|a x l s Hax F IH]; intros l' F'; inversion F'; subst; [reflexivity|f_equal; eauto]. Qed.

(** ** Extension sets *)

Lemma has_ext_in e l : has_ext e l = true <-> In e l.
Proof.
  unfold has_ext. rewrite existsb_exists. split.
  - intros (x & H & E). apply bytes_eqb_true in E. subst x. exact H.
  - intros H. exists e. split; [exact H|]. apply bytes_eqb_true. reflexivity.
Qed.
Lemma ext_set_in f n e : In e (ext_set f n) <-> e = n \/ In e f.
Proof.
  unfold ext_set. destruct (has_ext n f) eqn:E.
  - apply has_ext_in in E. intuition congruence.
  - rewrite in_app_iff. cbn. intuition congruence.
Qed.
Lemma nodup_snoc {A} (l : list A) x : NoDup l -> ~ In x l -> NoDup (l ++ [x]).
Proof. intros H N. apply NoDup_rev in H. rewrite <- (rev_involutive (l ++ [x])). apply NoDup_rev. rewrite rev_app_distr. cbn. constructor; [rewrite <- in_rev; exact N|exact H]. Qed.
Lemma ext_set_nodup f n : NoDup f -> NoDup (ext_set f n).
Proof.
  intros H. unfold ext_set. destruct (has_ext n f) eqn:E; [exact H|]. apply nodup_snoc; [exact H|]. intros K. apply has_ext_in in K. congruence.
Qed.
Lemma ext_fold_in (P : bytes -> bool) f2 : forall acc e, In e (fold_left (fun m n => if P n then ext_set m n else m) f2 acc) <-> In e acc \/ In e f2 /\ P e = true.
Proof.
  induction f2 as [|n f2 IH]; intros acc e; cbn [fold_left In]; [tauto|]. rewrite IH. destruct (P n) eqn:E.
  - rewrite ext_set_in. split; intuition (subst; auto).
  - split; intuition (subst; auto). congruence.
Qed.
Lemma ext_fold_nodup (P : bytes -> bool) f2 : forall acc, NoDup acc -> NoDup (fold_left (fun m n => if P n then ext_set m n else m) f2 acc).
Proof. induction f2 as [|n f2 IH]; intros acc H; cbn [fold_left]; [exact H|]. apply IH. destruct (P n); [apply ext_set_nodup; exact H|exact H]. Qed.
Lemma ext_intersect_spec f f2 : NoDup (ext_intersect f f2) /\ forall e, In e (ext_intersect f f2) <-> In e f /\ In e f2.
Proof.
  unfold ext_intersect. split; [apply ext_fold_nodup; constructor|]. intros e. rewrite (ext_fold_in (fun n => has_ext n f)). rewrite has_ext_in. cbn. tauto.
Qed.
Lemma ext_clone_spec f : NoDup (ext_clone f) /\ forall e, In e (ext_clone f) <-> In e f.
Proof.
  unfold ext_clone. change (fold_left ext_set f []) with (fold_left (fun m n => if (fun _ => true) n then ext_set m n else m) f []).
  split; [apply (ext_fold_nodup (fun _ => true)); constructor|]. intros e. rewrite (ext_fold_in (fun _ => true)). cbn. tauto.
Qed.
Lemma supports_intersect_spec m m2 : exists keep, supports_intersect m m2 = filter keep m2 /\ forall e, keep e = true <-> In e m.
Proof. exists (fun e => has_ext e m). split; [reflexivity|]. intros e. apply has_ext_in. Qed.

(** Sorting *)
Lemma insert_perm x l : Permutation (x :: l) (insert_sorted x l).
Proof.
  induction l as [|y l IH]; cbn; [reflexivity|]. destruct (bytes_leb x y); [reflexivity|]. rewrite perm_swap. constructor. exact IH.
Qed.
Lemma sort_perm l : Permutation l (sort_strings l).
Proof. induction l as [|x l IH]; cbn; [constructor|]. rewrite <- insert_perm. constructor. exact IH. Qed.
(** Lexicographic order of byte strings. *)
Lemma bytes_leb_spec a : forall b, bytes_leb a b = true <-> string_le a b.
Proof.
  induction a as [|x a IH]; intros b.
  - split; [constructor|reflexivity].
  - destruct b as [|y b]; cbn [bytes_leb].
    + split; [discriminate|inversion 1].
    + destruct (N.ltb_spec (b2n x) (b2n y)).
      * split; [intros _; apply sl_less; exact H|reflexivity].
      * destruct (N.ltb_spec (b2n y) (b2n x)).
        -- split; [discriminate|]. inversion 1; subst; lia.
        -- assert (x = y) by (apply b2n_inj; lia). subst y. rewrite IH. split; [apply sl_same|]. inversion 1; subst; [lia|assumption].
Qed.
Lemma string_le_total a b : bytes_leb a b = false -> string_le b a.
Proof.
  revert b. induction a as [|x a IH]; intros [|y b] H; cbn in H; try discriminate; [constructor|].
  destruct (N.ltb_spec (b2n x) (b2n y)); [discriminate|]. destruct (N.ltb_spec (b2n y) (b2n x)); [apply sl_less; exact H1|].
  assert (x = y) by (apply b2n_inj; lia). subst y. apply sl_same. apply IH. exact H.
Qed.
Lemma insert_sorted_sorted x l : Sorted string_le l -> Sorted string_le (insert_sorted x l).
Proof.
  induction l as [|y l IH]; intros H; cbn; [constructor; constructor|]. destruct (bytes_leb x y) eqn:E.
  - constructor; [exact H|]. constructor. apply bytes_leb_spec. exact E.
  - inversion H as [|? ? H1 H2]; subst. constructor; [auto|]. apply string_le_total in E.
    destruct l as [|z l]; cbn; [constructor; exact E|]. destruct (bytes_leb x z); constructor; [exact E|]. inversion H2. assumption.
Qed.
Lemma sort_sorted l : Sorted string_le (sort_strings l).
Proof. induction l; cbn; [constructor|]. apply insert_sorted_sorted. assumption. Qed.
