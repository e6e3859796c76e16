(** Common lemmas about the NMDC payloads: decimal notation, marks, hashes. *)
From Coq Require Import Decimal DecimalN DecimalString.
From Verif Require Import Base BaseFacts Num NumFacts Utf8 NmdcText NmdcTextFacts SpecText SpecHash Base32 Base32Facts Tiger TigerFacts SpecNmdc.

(** ** Decimal notation *)

Fixpoint to_dec (s : bytes) : Decimal.uint :=
  match s with
  | [] => Nil
  | c :: t =>
      let d := to_dec t in
      if beq c "0" then D0 d else if beq c "1" then D1 d else if beq c "2" then D2 d else if beq c "3" then D3 d
      else if beq c "4" then D4 d else if beq c "5" then D5 d else if beq c "6" then D6 d else if beq c "7" then D7 d
      else if beq c "8" then D8 d else D9 d
  end.

Definition digit_chars : bytes := B "0123456789".
Lemma digit_char_in c : is_digit c = true -> In c digit_chars.
Proof.
  assert (K : forallb (fun c => implb (is_digit c) (existsb (beq c) digit_chars)) all_bytes = true) by (vm_compute; reflexivity).
  pose proof (forall_byte _ K c) as H. cbv beta in H. intros E. rewrite E in H. cbn [implb] in H.
  apply existsb_exists in H. destruct H as (x & H1 & H2). apply beq_true in H2. subst. exact H1.
Qed.

Lemma to_dec_string s : forallb is_digit s = true -> B (NilEmpty.string_of_uint (to_dec s)) = s.
Proof.
  induction s as [|c s IH]; [reflexivity|]. cbn [forallb]. rewrite andb_true_iff. intros [Hc Hs].
  apply digit_char_in in Hc. specialize (IH Hs).
  repeat (destruct Hc as [<-|Hc]; [cbn [to_dec]; cbn; f_equal; exact IH|]). destruct Hc.
Qed.

Lemma of_uint_acc_digits s : forall p, forallb is_digit s = true -> digits_acc (Npos p) s = Some (Npos (Pos.of_uint_acc (to_dec s) p)).
Proof.
  induction s as [|c s IH]; intros p; [reflexivity|]. cbn [forallb]. rewrite andb_true_iff. intros [Hc Hs].
  cbn [digits_acc]. rewrite Hc. apply digit_char_in in Hc.
  repeat (destruct Hc as [<-|Hc];
    [match goal with |- context [digit_val ?c] => let v := eval vm_compute in (digit_val c) in change (digit_val c) with v end;
     cbn [to_dec]; cbn [beq Byte.eqb]; cbn -[Pos.mul Pos.add N.mul N.add digits_acc to_dec];
     match goal with |- digits_acc ?n _ = Some (N.pos (Pos.of_uint_acc _ ?q)) => replace n with (Npos q) by lia end;
     apply IH; exact Hs|]). destruct Hc.
Qed.

Lemma of_uint_digits s : forallb is_digit s = true -> digits_acc 0 s = Some (N.of_uint (to_dec s)).
Proof.
  unfold N.of_uint.
  induction s as [|c s IH]; [reflexivity|]. cbn [forallb]. rewrite andb_true_iff. intros [Hc Hs].
  cbn [digits_acc]. rewrite Hc. apply digit_char_in in Hc.
  destruct Hc as [<-|Hc]; [apply IH; exact Hs|].
  repeat (destruct Hc as [<-|Hc];
    [match goal with |- context [digit_val ?c] => let v := eval vm_compute in (digit_val c) in change (digit_val c) with v end;
     cbn [to_dec]; cbn [beq Byte.eqb]; cbn -[Pos.mul Pos.add N.mul N.add digits_acc to_dec];
     match goal with |- digits_acc ?n _ = Some (N.pos (Pos.of_uint_acc _ ?q)) => replace n with (Npos q) by lia end;
     apply of_uint_acc_digits; exact Hs|]). destruct Hc.
Qed.

Lemma digit_zero d : (d < 10)%N -> digit d = "0"%byte -> d = 0%N.
Proof. intros H E. unfold digit in E. apply (f_equal b2n) in E. rewrite b2n_n2b in E by lia. change (b2n "0") with 48%N in E. lia. Qed.

Lemma fmt_fuel_head f : forall n acc, (n < 2 ^ N.of_nat f)%N -> (0 < n)%N -> f <> 0 ->
  exists c r, fmt_fuel f n acc = c :: r /\ c <> "0"%byte.
Proof.
  induction f as [|f IH]; intros n acc Hn Hp Hf; [contradiction|]. cbn [fmt_fuel].
  destruct (n / 10 =? 0)%N eqn:E.
  - apply N.eqb_eq in E. apply N.div_small_iff in E; [|lia]. eexists _, _. split; [reflexivity|].
    rewrite N.mod_small by exact E. intros C. apply digit_zero in C; lia.
  - apply N.eqb_neq in E. apply IH; [| |].
    + replace (N.of_nat (S f)) with (N.of_nat f + 1)%N in Hn by lia. rewrite N.pow_add_r in Hn.
      apply N.div_lt_upper_bound; [lia|]. change (2 ^ 1)%N with 2%N in Hn. lia.
    + lia.
    + intros ->. change (2 ^ N.of_nat 1)%N with 2%N in Hn. apply E. apply N.div_small. lia.
Qed.

Lemma format_head n : (0 < n)%N -> exists c r, format_uint n = c :: r /\ c <> "0"%byte.
Proof.
  intros H. unfold format_uint. apply fmt_fuel_head; [|exact H|lia].
  replace (N.of_nat (S (N.to_nat (N.log2 n)))) with (N.succ (N.log2 n)) by lia. apply N.log2_spec. exact H.
Qed.

Lemma nzhead_to_dec c s : is_digit c = true -> c <> "0"%byte -> nzhead (to_dec (c :: s)) = to_dec (c :: s).
Proof.
  intros Hc H0. apply digit_char_in in Hc. destruct Hc as [<-|Hc]; [contradiction|].
  repeat (destruct Hc as [<-|Hc]; [reflexivity|]). destruct Hc.
Qed.
Lemma to_dec_not_nil c s : to_dec (c :: s) <> Nil.
Proof. cbn [to_dec]. repeat match goal with |- context [if ?b then _ else _] => destruct b end; discriminate. Qed.

Lemma format_dec n : format_uint n = dec_text n.
Proof.
  destruct (N.eq_dec n 0) as [->|Hn]; [reflexivity|].
  destruct (format_head n ltac:(lia)) as (c & r & E & Hc).
  pose proof (format_uint_forall n) as F. pose proof (digits_format n) as D.
  rewrite (of_uint_digits _ F) in D. injection D as D.
  unfold dec_text. replace (N.to_uint n) with (unorm (to_dec (format_uint n))) by (rewrite <- Unsigned.to_of, D; reflexivity).
  clear D. unfold unorm. rewrite E in *. rewrite nzhead_to_dec; [| |exact Hc].
  - pose proof (to_dec_not_nil c r) as NN. pose proof (to_dec_string _ F) as S. destruct (to_dec (c :: r)); [contradiction|..]; symmetry; exact S.
  - cbn in F. apply andb_true_iff in F. apply F.
Qed.
Lemma format_int_text z : format_int z = int_text z.
Proof. unfold format_int, int_text. rewrite !format_dec. reflexivity. Qed.

Lemma u64_is n : u64 n <-> is_uint64 n. Proof. reflexivity. Qed.
Lemma i64_is z : i64 z <-> is_int64 z. Proof. reflexivity. Qed.

(** ** Hashes *)

Lemma bits5_inj a b : (a < 32)%N -> (b < 32)%N -> bits5 a = bits5 b -> a = b.
Proof.
  intros Ha Hb E.
  assert (K : (if list_eq_dec bool_dec (bits5 a) (bits5 b) then (a =? b)%N else true) = true).
  { revert a b Ha Hb E. intros a b Ha Hb _. revert a b Ha Hb. apply checkv2. vm_compute. reflexivity. }
  destruct (list_eq_dec bool_dec (bits5 a) (bits5 b)); [apply N.eqb_eq; exact K|contradiction].
Qed.
Lemma flat_bits5_inj : forall a b, Forall (fun v => v < 32)%N a -> Forall (fun v => v < 32)%N b -> flat_map bits5 a = flat_map bits5 b -> a = b.
Proof.
  induction a as [|x a IH]; intros [|y b] Ha Hb E; [reflexivity|discriminate|discriminate|].
  cbn [flat_map] in E. inversion Ha; subst. inversion Hb; subst.
  assert (K : bits5 x = bits5 y /\ flat_map bits5 a = flat_map bits5 b).
  { apply (f_equal (firstn 5)) in E as E1. apply (f_equal (skipn 5)) in E as E2.
    rewrite <- (bits5_length x) in E1 at 1. rewrite <- (bits5_length y) in E1 at 1. rewrite !firstn_app_exact in E1.
    rewrite <- (bits5_length x) in E2 at 1. rewrite <- (bits5_length y) in E2 at 1. rewrite !skipn_app_exact in E2. auto. }
  destruct K as [K1 K2]. f_equal; [apply bits5_inj; assumption|apply IH; assumption].
Qed.
Lemma spells_unique t t' bs : spells t bs -> spells t' bs -> t = t'.
Proof.
  intros (vs & H & ->) (vs' & H' & E). apply symbols_map_inv in H, H'. destruct H as [-> H], H' as [-> H'].
  f_equal. apply flat_bits5_inj; assumption.
Qed.
Lemma hash_spelled_iff h t : hash_spelled h t <-> length h = 24 /\ t = hash_base32 h.
Proof.
  split.
  - intros (H & Hl & Hs). split; [exact H|]. eapply spells_unique; [exact Hs|]. apply hash_text. exact H.
  - intros [H ->]. pose proof (hash_text h H) as [H1 H2]. repeat split; assumption.
Qed.

(** ** Text *)

Lemma es_eq w : flat_map entity_string w = esc_string w.
Proof. unfold esc_string. apply flat_map_ext_in. intros c _. symmetry. apply entity_string_eq. Qed.
Lemma en_eq w : ~ In "$"%byte w -> flat_map entity_name w = esc_name w.
Proof. intros H. unfold esc_name. apply flat_map_ext_in. intros c Hc. symmetry. apply entity_name_eq. intros ->. contradiction. Qed.
Lemma name_en enc dec s w : name_text enc dec s w -> flat_map entity_name w = esc_name w.
Proof. intros H. apply en_eq. apply H. Qed.
Lemma substring_occurs p s : substring p s <-> occurs p s. Proof. reflexivity. Qed.
Lemma starts_with_prefix p s : starts_with p s <-> has_prefix p s = true.
Proof. symmetry. apply has_prefix_spec. Qed.

(** A mark: a byte of the separator which cannot occur before it. *)
Lemma occurs_in c p s : occurs p s -> In c p -> In c s.
Proof. intros (a & r & ->) H. rewrite !in_app_iff. auto. Qed.
Lemma removelast_in {A} (x : A) l : In x (removelast l) -> In x l.
Proof. induction l as [|y l IH]; [intros []|]. destruct l as [|z l]; [intros []|]. intros [->|H]; [left; reflexivity|right; apply IH; exact H]. Qed.

(** the first place where the mark occurs fixes the separator *)
Lemma first_mark (c : byte) a1 r1 a2 r2 : a1 ++ c :: r1 = a2 ++ c :: r2 -> ~ In c a1 -> ~ In c a2 -> a1 = a2 /\ r1 = r2.
Proof.
  revert a2. induction a1 as [|x a1 IH]; intros [|y a2] E H1 H2.
  - injection E as E. auto.
  - injection E as -> E. exfalso. apply H2. left. reflexivity.
  - injection E as -> E. exfalso. apply H1. left. reflexivity.
  - injection E as -> E. destruct (IH a2 E) as [-> ->]; [| |auto]; intros K; [apply H1|apply H2]; right; exact K.
Qed.
Lemma cut_seq_mark p1 c p2 a r : ~ In c a -> ~ In c p1 -> cut_seq (p1 ++ c :: p2) (a ++ p1 ++ c :: p2 ++ r) = Some (a, r).
Proof.
  intros Ha H1. assert (Occ : occurs (p1 ++ c :: p2) (a ++ p1 ++ c :: p2 ++ r)).
  { exists a, r. rewrite <- !app_assoc. reflexivity. }
  destruct (cut_seq (p1 ++ c :: p2) (a ++ p1 ++ c :: p2 ++ r)) as [[a' r']|] eqn:E.
  - unfold cut_seq in E. destruct (index (p1 ++ c :: p2) (a ++ p1 ++ c :: p2 ++ r)) as [i|] eqn:Ei; [|discriminate].
    pose proof Ei as Ei2. replace (a ++ p1 ++ c :: p2 ++ r) with (a ++ (p1 ++ c :: p2) ++ r) in Ei2 by (rewrite <- !app_assoc; reflexivity).
    apply index_first in Ei2. apply index_some in Ei. destruct Ei as (x & Ex & _ & Hx).
    injection E as Ea Er. rewrite Ea in Ex.
    assert (La : length a' <= length a) by (rewrite <- Ea, firstn_length; lia).
    assert (Pa : ~ In c a').
    { intros K. rewrite <- Ea in K. rewrite firstn_app in K. replace (i - length a) with 0 in K by lia. cbn [firstn] in K. rewrite app_nil_r in K.
      apply Ha. rewrite <- (firstn_skipn i a). apply in_app_iff. left. exact K. }
    assert (M : (a ++ p1) ++ c :: (p2 ++ r) = (a' ++ p1) ++ c :: (p2 ++ x)).
    { rewrite <- !app_assoc. rewrite <- !app_assoc in Ex. exact Ex. }
    apply first_mark in M; [|intros K; apply in_app_iff in K; tauto|intros K; apply in_app_iff in K; tauto].
    destruct M as [M1 M2]. apply app_inv_tail in M1. apply app_inv_head in M2. rewrite Hx in Er. congruence.
  - apply cut_seq_none in E. contradiction.
Qed.

(** [p] has no border: no proper non-empty suffix is a prefix. *)
Lemma cut_seq_before p a r : p <> [] -> (forall x y, a = x ++ y -> y <> [] -> has_prefix p (y ++ p ++ r) = false) -> cut_seq p (a ++ p ++ r) = Some (a, r).
Proof.
  intros Hp. unfold cut_seq. revert r. induction a as [|c a IH]; intros r H.
  - cbn [app]. destruct p as [|x p]; [contradiction|]. cbn [index app]. change (x :: p ++ r) with ((x :: p) ++ r). rewrite has_prefix_app. cbn [firstn]. change (0 + length (x :: p)) with (length (x :: p)).
    rewrite skipn_app_exact. reflexivity.
  - pose proof (H [] (c :: a) eq_refl ltac:(discriminate)) as H0. cbn [app] in H0 |- *. cbn [index]. rewrite H0.
    assert (IH' := IH r ltac:(intros x y -> ; apply (H (c :: x) y); reflexivity)).
    destruct (index p (a ++ p ++ r)) as [i|]; [|discriminate]. cbn [option_map]. injection IH' as I1 I2.
    cbn [firstn Nat.add skipn]. rewrite I1, I2. reflexivity.
Qed.
