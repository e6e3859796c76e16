(** Reading relations (SpecRead): cutting, values and text. *)
From Verif Require Import Base BaseFacts Num NumFacts NumSpec Utf8 Utf8Facts SpecText SpecHash SpecNmdc SpecRead HtmlReadFacts NmdcText NmdcTextFacts.
From Verif Require Import Tiger TigerFacts NmdcChat NmdcFiles NmdcChatFacts.

Lemma len_app_inj {A} (a a' b b' : list A) : length a = length a' -> a ++ b = a' ++ b' -> a = a' /\ b = b'.
Proof. revert a'. induction a as [|x a IH]; intros [|y a'] L E; try discriminate; [auto|]. injection E as -> E. injection L as L. destruct (IH _ L E) as [-> ->]. auto. Qed.

Lemma first_cut_seq p s a r : cut_seq p s = Some (a, r) <-> first p s a r.
Proof.
  split.
  - intros H. split; [now apply cut_seq_some|]. intros a' b' E. unfold cut_seq in H. destruct (index p s) as [i|] eqn:I; [|discriminate].
    injection H as <- <-. pose proof (index_some _ _ _ I) as (r & _ & L & _). rewrite E in I. apply index_first in I. rewrite firstn_length. lia.
  - intros [E H]. destruct (cut_seq p s) as [[a' r']|] eqn:C.
    + assert (K := cut_seq_some _ _ _ _ C). pose proof (H _ _ K) as L1.
      assert (L2 : length a' <= length a).
      { unfold cut_seq in C. destruct (index p s) as [i|] eqn:I; [|discriminate]. injection C as <- <-. rewrite E in I. apply index_first in I. rewrite firstn_length. lia. }
      rewrite E in K. apply len_app_inj in K; [|lia]. destruct K as [-> K]. now apply app_inv_head in K as ->.
    + apply cut_seq_none in C. exfalso. apply C. exists a, r. exact E.
Qed.
Lemma first_cut c s a r : cut c s = Some (a, r) <-> first [c] s a r.
Proof.
  rewrite cut_spec. split.
  - intros [-> H]. split; [reflexivity|]. intros a' b' E. cbn [app] in E. destruct (le_lt_dec (length a) (length a')) as [L|L]; [exact L|].
    exfalso. apply H. apply (f_equal (fun l => nth_error l (length a'))) in E. rewrite nth_error_app1 in E by exact L.
    rewrite nth_error_app2, Nat.sub_diag in E by lia. cbn in E. eapply nth_error_In; eassumption.
  - intros [E H]. split; [exact E|]. intros I. apply in_split in I as (x & y & ->). specialize (H x (y ++ [c] ++ r)). rewrite E, app_length in H. cbn in H.
    rewrite <- app_assoc in H. specialize (H eq_refl). lia.
Qed.
Lemma not_substring_cut p s : cut_seq p s = None <-> ~ substring p s.
Proof. apply cut_seq_none. Qed.
Lemma substring1 c s : substring [c] s <-> In c s.
Proof. split; [intros (a & r & ->); apply in_or_app; right; left; reflexivity|intros I; apply in_split in I as (a & r & ->); exists a, r; reflexivity]. Qed.

Lemma split_on_byte c s l : split_on [c] s l <-> l = split_byte c s.
Proof.
  split.
  - induction 1 as [s H|s a b l H _ ->].
    + rewrite substring1 in H. now rewrite split_byte_notin.
    + apply first_cut, cut_spec in H as [-> H]. now rewrite split_byte_app.
  - intros ->. remember (length s) as n eqn:E. assert (L : length s <= n) by lia. clear E. revert s L.
    induction n as [|n IH]; intros s L.
    + destruct s; [|cbn in L; lia]. apply so_last. rewrite substring1. auto.
    + destruct (cut c s) as [[a b]|] eqn:C.
      * assert (C' := C). apply cut_spec in C' as [-> N]. rewrite split_byte_app by exact N. apply so_part with b; [now apply first_cut|]. apply IH.
        rewrite app_length in L. cbn in L. lia.
      * apply cut_none in C. rewrite split_byte_notin by exact C. apply so_last. now rewrite substring1.
Qed.
Lemma split_seq_step p s : p <> [] -> split_seq p s = match cut_seq p s with Some (a, r) => a :: split_seq p r | None => [s] end.
Proof.
  intros Hp. unfold split_seq.
  assert (Z : cut_seq p [] = None) by (apply cut_seq_none; intros (a & r & E); destruct a; [destruct p; [congruence|discriminate]|discriminate]).
  assert (M : forall f g x, length x <= f -> length x <= g -> split_seq_fuel f p x = split_seq_fuel g p x).
  { induction f as [|f IH]; intros g x L1 L2.
    - destruct x; [|cbn in L1; lia]. destruct g; cbn [split_seq_fuel]; [|rewrite Z]; reflexivity.
    - destruct g as [|g]; [destruct x; [|cbn in L2; lia]; cbn [split_seq_fuel]; now rewrite Z|]. cbn [split_seq_fuel]. destruct (cut_seq p x) as [[a r]|] eqn:C; [|reflexivity].
      f_equal. apply cut_seq_some in C. subst x. rewrite !app_length in *. destruct p; [congruence|]. cbn in *. apply IH; lia. }
  rewrite (M (length s) (S (length s)) s) by lia.
  cbn [split_seq_fuel]. destruct (cut_seq p s) as [[a r]|] eqn:C; [|reflexivity]. f_equal. apply cut_seq_some in C. subst s. rewrite !app_length. destruct p; [congruence|]. apply M; cbn; lia.
Qed.
Lemma split_on_seq p s l : p <> [] -> (split_on p s l <-> l = split_seq p s).
Proof.
  intros Hp. split.
  - induction 1 as [s H|s a b l H _ IH]; rewrite split_seq_step by exact Hp.
    + apply not_substring_cut in H. now rewrite H.
    + apply first_cut_seq in H. rewrite H. now rewrite IH.
  - intros ->. remember (length s) as n eqn:E. assert (L : length s <= n) by lia. clear E. revert s L.
    induction n as [|n IH]; intros s L; rewrite split_seq_step by exact Hp; destruct (cut_seq p s) as [[a b]|] eqn:C.
    + apply cut_seq_some in C. subst s. rewrite !app_length in L. destruct p; [congruence|cbn in L; lia].
    + apply so_last. now apply not_substring_cut.
    + apply so_part with b; [now apply first_cut_seq|]. apply IH. apply cut_seq_some in C. subst s. rewrite !app_length in L. destruct p; [congruence|cbn in L; lia].
    + apply so_last. now apply not_substring_cut.
Qed.

Lemma without_suffix_iff p s t : p <> [] -> (without_suffix p s t <-> t = trim_suffix p s).
Proof.
  intros Hp. unfold without_suffix, trim_suffix. destruct (has_suffix p s) eqn:H.
  - apply has_suffix_spec in H as [r ->]. rewrite app_length. replace (length r + length p - length p) with (length r) by lia. rewrite firstn_app_exact. split.
    + intros [E|[E _]]; [now apply app_inv_tail in E|]. exfalso. now apply (E r).
    + intros ->. auto.
  - split; [intros [->|[_ ->]]; [|reflexivity]|].
    + assert (K : has_suffix p (t ++ p) = true) by (apply has_suffix_spec; eauto). congruence.
    + intros ->. right. split; [|reflexivity]. intros a ->. assert (K : has_suffix p (a ++ p) = true) by (apply has_suffix_spec; eauto). congruence.
Qed.
Lemma without_prefix_iff p s t : without_prefix p s t <-> t = trim_prefix p s.
Proof.
  unfold without_prefix, trim_prefix, starts_with. destruct (has_prefix p s) eqn:H.
  - apply has_prefix_spec in H as [r ->]. rewrite skipn_app_exact. split.
    + intros [E|[E _]]; [now apply app_inv_head in E|]. exfalso. apply E. eauto.
    + intros ->. auto.
  - assert (N : ~ exists r, s = p ++ r) by (rewrite <- has_prefix_spec; congruence). split; [intros [->|[_ ->]]; [exfalso; eauto|reflexivity]|]. intros ->. auto.
Qed.

Lemma uint_iff s n : parse_uint_trim s = Ok n <-> uint_read s n.
Proof. apply parse_uint_exact. Qed.
Lemma int_iff s z : atoi_trim s = Ok z <-> int_read s z.
Proof. apply atoi_exact. Qed.
Lemma wrapped_iff s n : uint_read s n -> to_int64 n = wrapped64 n.
Proof.
  intros (_ & _ & _ & U). unfold u64 in U. unfold to_int64, wrapped64, two64, two63. rewrite N.mod_small by exact U.
  change (2 ^ 63)%Z with 9223372036854775808%Z. change (2 ^ 64)%Z with 18446744073709551616%Z. change (2 ^ 63)%N with 9223372036854775808%N.
  destruct (Z.ltb_spec (Z.of_N n) 9223372036854775808), (N.ltb_spec n 9223372036854775808); lia.
Qed.

Lemma text_iff dec raw s : text_unmarshal dec raw = Ok s <-> text_read dec raw s.
Proof.
  unfold text_unmarshal, text_read. rewrite bind_ok. split.
  - intros (w & R & H). destruct (utf8_valid w) eqn:V; [|discriminate]. injection H as <-. exists (unescape_bytes raw).
    split; [now apply unescaped_iff|]. split; [now apply encodes_to_run|now apply utf8_text_iff].
  - intros (u & U & E & V). apply unescaped_iff in U as ->. apply encodes_to_run in E. apply utf8_text_iff in V. exists s. rewrite V. auto.
Qed.
Lemma str_iff dec raw s : string_unmarshal dec raw = Ok s <-> str_read dec raw s.
Proof.
  unfold string_unmarshal, str_read. destruct (contains_byte x00 raw) eqn:C.
  - apply contains_byte_spec in C. split; [discriminate|tauto].
  - apply contains_byte_false in C. rewrite text_iff. tauto.
Qed.
Lemma name_iff dec raw s : name_unmarshal dec raw = Ok s <-> name_read dec raw s.
Proof.
  unfold name_unmarshal, name_read. destruct (Nat.ltb_spec max_name (length raw)) as [L|L].
  - split; [discriminate|]. unfold max_name in L. intros [K _]. lia.
  - destruct (existsb invalid_char_name raw) eqn:X.
    + split; [discriminate|]. intros (_ & N & _). apply existsb_exists in X as (c & I & X). apply invalid_char_name_spec in X. cbn in X. destruct X as [<-|[<-|[<-|[<-|[<-|[]]]]]]; tauto.
    + rewrite text_iff. unfold max_name in L. assert (N : forall c, In c raw -> invalid_char_name c = false).
      { intros c I. destruct (invalid_char_name c) eqn:Y; [|reflexivity]. assert (existsb invalid_char_name raw = true) by (apply existsb_exists; eauto). congruence. }
      assert (M : ~ In "$"%byte raw /\ ~ In x00 raw /\ ~ In x0d raw /\ ~ In x0a raw /\ ~ In x09 raw) by (repeat split; intros I; apply N in I; discriminate I).
      split; [intros H; repeat split; try tauto; lia|tauto].
Qed.

Lemma ignored_not_40 t tail : length t = 39 -> ignored_tail tail -> ~ starts_with_symbols 40 (t ++ tail).
Proof.
  intros L IT (t' & rest & vs & E & L' & F). assert (X : exists x, tail = x :: skipn 1 tail /\ t' = t ++ [x]).
  { destruct tail as [|x tail].
    - rewrite app_nil_r in E. subst t. rewrite app_length in L. lia.
    - exists x. split; [reflexivity|]. change (t ++ x :: tail) with (t ++ [x] ++ tail) in E. rewrite app_assoc in E.
      apply len_app_inj in E; [symmetry; apply E|]. rewrite app_length. cbn. lia. }
  destruct X as (x & T & ->). destruct IT as [->|(y & -> & _)]; [discriminate|]. injection T as <-.
  apply Forall2_app_inv_l in F as (v1 & v2 & _ & F & _). inversion F as [|? v ? ? Sy]; subst. clear -Sy. remember xff as c eqn:C.
  destruct Sy as [v V|v V]; apply (f_equal b2n) in C; rewrite b2n_n2b in C by lia; change (b2n xff) with 255%N in C; lia.
Qed.

Lemma hash_iff h0 s h : length h0 = 24 -> (hash_unmarshal_base32 h0 s = (Ok tt, h) <-> hash_read s h).
Proof.
  intros H0. assert (F := from_base32_ok h0 s h H0). unfold hash_read.
  assert (K : hash_unmarshal_base32 h0 s = (Ok tt, h) <-> hash_from_base32 h0 s = (Ok tt, h)).
  { pose proof (unmarshal_agrees h0 s H0) as A. split; intros E.
    - rewrite E in A. cbn [fst snd] in A. specialize (A ltac:(discriminate)) as [A1 A2]. destruct (hash_from_base32 h0 s) as [r x]. cbn in *. subst r. f_equal. now rewrite A2.
    - assert (NP : fst (hash_unmarshal_base32 h0 s) <> Panic).
      { intros P. apply unmarshal_panics in P; [|exact H0]. apply F in E as (_ & t & tail & r & U & L & IT & _ & SP). rewrite U in P.
        revert P. apply ignored_not_40; assumption. }
      specialize (A NP) as [A1 A2]. rewrite E in A1, A2. cbn [fst snd] in *. destruct (hash_unmarshal_base32 h0 s) as [r x]. cbn in *. subst r. f_equal. now apply A2. }
  rewrite K, F. clear. split; intros (L & t & tail & r & H1 & H2 & H3 & H4 & H5); (split; [exact L|]); exists t, tail, r; auto.
Qed.

(** Following a decoder: at the first match of [H] take the branch that does not fail. *)
Ltac head_step H :=
  cbv zeta in H;
  match type of H with
  | (match cut_seq ?p ?d with _ => _ end) = _ => let E := fresh "E" in destruct (cut_seq p d) as [[? ?]|] eqn:E; [apply first_cut_seq in E|discriminate H]
  | (match cut ?c ?d with _ => _ end) = _ => let E := fresh "E" in destruct (cut c d) as [[? ?]|] eqn:E; [apply first_cut in E|discriminate H]
  | (match name_unmarshal ?c ?d with _ => _ end) = _ => let E := fresh "E" in destruct (name_unmarshal c d) as [?|?|] eqn:E; [apply name_iff in E|discriminate H|discriminate H]
  | (match string_unmarshal ?c ?d with _ => _ end) = _ => let E := fresh "E" in destruct (string_unmarshal c d) as [?|?|] eqn:E; [apply str_iff in E|discriminate H|discriminate H]
  | (match parse_uint_trim ?d with _ => _ end) = _ => let E := fresh "E" in destruct (parse_uint_trim d) as [?|?|] eqn:E; [apply uint_iff in E|discriminate H|discriminate H]
  | (match atoi_trim ?d with _ => _ end) = _ => let E := fresh "E" in destruct (atoi_trim d) as [?|?|] eqn:E; [apply int_iff in E|discriminate H|discriminate H]
  end.
(** Rewriting a decoder with what is known about its parts. *)
Ltac back_step :=
  cbv zeta;
  match goal with
  | H : first ?p ?s ?a ?r |- context [cut_seq ?q ?s] => rewrite (proj2 (first_cut_seq q s a r) H); cbv iota beta
  | H : first ?p ?s ?a ?r |- context [cut ?c ?s] => rewrite (proj2 (first_cut c s a r) H); cbv iota beta
  | H : name_read ?c ?d ?x |- context [name_unmarshal ?c ?d] => rewrite (proj2 (name_iff c d x) H); cbv iota beta
  | H : str_read ?c ?d ?x |- context [string_unmarshal ?c ?d] => rewrite (proj2 (str_iff c d x) H); cbv iota beta
  | H : uint_read ?d ?x |- context [parse_uint_trim ?d] => rewrite (proj2 (uint_iff d x) H); cbv iota beta
  | H : int_read ?d ?x |- context [atoi_trim ?d] => rewrite (proj2 (int_iff d x) H); cbv iota beta
  end.
