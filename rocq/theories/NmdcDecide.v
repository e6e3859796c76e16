(** Deciding the side conditions of the wire formats on concrete UTF-8 messages (used for the
    examples beside the theorems). *)
From Verif Require Import Base BaseFacts Num Utf8 NmdcText NmdcTextFacts SpecText SpecHash SpecNmdc NmdcMsgFacts NmdcChat NmdcChatFacts Tiger TigerFacts.
From Coq Require Import Lia.

Definition str_ok (s : bytes) : bool := utf8_valid s && negb (contains_byte x00 s) && no_legacyb s.
Lemma str_ok_sound s : str_ok s = true -> string_text None None s s.
Proof.
  unfold str_ok. intros H. apply andb_true_iff in H. destruct H as [H L]. apply andb_true_iff in H. destruct H as [V Z]. apply negb_true_iff in Z.
  split; [split; [reflexivity|split; [reflexivity|apply utf8_text_iff; exact V]]|]. split; [apply contains_byte_false; exact Z|apply no_legacyb_sound; exact L].
Qed.
Definition name_ok (s : bytes) : bool :=
  utf8_valid s && (N.of_nat (length s) <=? 256)%N && (name_wire_len s <=? 256)%N &&
  forallb (fun c => negb (contains_byte c s)) ["$"%byte; x00; x0d; x0a; x09] && no_legacyb s.
Lemma name_ok_sound s : name_ok s = true -> name_text None None s s.
Proof.
  unfold name_ok. intros H. rewrite !andb_true_iff in H. destruct H as ((((V & L1) & L2) & C) & L).
  rewrite forallb_forall in C. assert (N : forall c, In c ["$"%byte; x00; x0d; x0a; x09] -> ~ In c s) by (intros c Hc; specialize (C c Hc); apply negb_true_iff in C; apply contains_byte_false; exact C).
  split; [split; [reflexivity|split; [reflexivity|apply utf8_text_iff; exact V]]|]. split; [apply N.leb_le; exact L1|]. split; [apply N.leb_le; exact L2|].
  split; [repeat split; apply N; cbn; tauto|apply no_legacyb_sound; exact L].
Qed.
Lemma not_in_ok c s : contains_byte c s = false -> ~ In c s. Proof. apply contains_byte_false. Qed.
Definition lacks (p s : bytes) : bool := match index p s with Some _ => false | None => true end.
Lemma lacks_sound p s : lacks p s = true -> ~ substring p s.
Proof. unfold lacks. destruct (index p s) eqn:E; [discriminate|]. intros _. apply index_none in E. exact E. Qed.
Lemma not_starts_ok p s : has_prefix p s = false -> ~ starts_with p s.
Proof. intros H [r ->]. rewrite has_prefix_app in H. discriminate. Qed.
Lemma not_ends_ok c s : last_is c s = false -> ~ ends_in c s.
Proof. intros H [a ->]. rewrite last_is_app, beq_refl in H. discriminate. Qed.
Lemma ends_white_last s : ends_white s -> In (last s x00) (map (fun r => last (utf8_of r) x00)
  [9; 10; 11; 12; 13; 32; 0x85; 0xA0; 0x1680; 0x2000; 0x2001; 0x2002; 0x2003; 0x2004; 0x2005; 0x2006;
   0x2007; 0x2008; 0x2009; 0x200A; 0x2028; 0x2029; 0x202F; 0x205F; 0x3000]%N).
Proof.
  intros (a & r & W & ->). apply in_map_iff. exists r. split; [|exact W]. assert (N : utf8_of r <> []) by (unfold utf8_of; repeat destruct (_ <? _)%N; discriminate).
  clear W. induction a as [|x a IH]; [reflexivity|]. cbn [app]. rewrite IH. destruct (a ++ utf8_of r) eqn:E; [destruct a; [contradiction|discriminate]|reflexivity].
Qed.
Lemma not_ends_white_ok s : contains_byte (last s x00) (map (fun r => last (utf8_of r) x00)
  [9; 10; 11; 12; 13; 32; 0x85; 0xA0; 0x1680; 0x2000; 0x2001; 0x2002; 0x2003; 0x2004; 0x2005; 0x2006;
   0x2007; 0x2008; 0x2009; 0x200A; 0x2028; 0x2029; 0x202F; 0x205F; 0x3000]%N) = false -> ~ ends_white s.
Proof. intros H K. apply ends_white_last in K. apply contains_byte_false in H. contradiction. Qed.
Lemma not_slots_ok s : contains_byte "/" s = false -> ~ slots_like s.
Proof. intros H (a & c & d & -> & _ & _ & K). apply contains_byte_false in H. apply H. apply in_app_iff. right. right. exact K. Qed.
Lemma spelled_ok h t : length h = 24 -> hash_base32 h = t -> hash_spelled h t.
Proof. intros H <-. apply hash_spelled_iff. auto. Qed.

Definition tag_ok (s : bytes) : bool := forallb (fun c => negb (contains_byte c s)) (B ",<$").
Lemma tag_ok_sound s : tag_ok s = true -> tag_clean s.
Proof.
  unfold tag_ok. rewrite forallb_forall. intros H. repeat split; apply contains_byte_false; apply negb_true_iff; apply H; cbn; tauto.
Qed.
Definition key_ok (k : bytes) : bool :=
  tag_ok k && negb (contains_byte ":" k) && match k with [] => false | [c] => (b2n c <=? 90)%N && negb (contains_byte c (B "VMHS")) | _ => true end.
Lemma key_ok_sound k : key_ok k = true -> extra_key k.
Proof.
  unfold key_ok. intros H. apply andb_true_iff in H. destruct H as [H K]. apply andb_true_iff in H. destruct H as [T C]. apply negb_true_iff in C.
  split; [intros ->; discriminate|]. split; [apply tag_ok_sound; exact T|]. split; [apply contains_byte_false; exact C|].
  intros c ->. apply andb_true_iff in K. destruct K as [K1 K2]. split; [apply N.leb_le; exact K1|apply contains_byte_false; apply negb_true_iff; exact K2].
Qed.
Fixpoint distinct (l : list bytes) : bool := match l with [] => true | x :: r => negb (existsb (bytes_eqb x) r) && distinct r end.
Lemma distinct_sound l : distinct l = true -> NoDup l.
Proof.
  induction l as [|x l IH]; intros H; [constructor|]. cbn [distinct] in H. apply andb_true_iff in H. destruct H as [H1 H2]. constructor; [|auto].
  intros K. apply negb_true_iff in H1. rewrite <- not_true_iff_false in H1. apply H1. apply existsb_exists. exists x. split; [exact K|apply bytes_eqb_true; reflexivity].
Qed.

(** Solves one condition. *)
Ltac easy_cond :=
  match goal with
  | H : B _ = [] |- _ => discriminate H
  | |- string_text None None _ _ => apply str_ok_sound; vm_compute; reflexivity
  | |- name_text None None _ _ => apply name_ok_sound; vm_compute; reflexivity
  | |- ~ In _ _ => apply not_in_ok; vm_compute; reflexivity
  | |- ~ substring _ _ => apply lacks_sound; vm_compute; reflexivity
  | |- ~ starts_with _ _ => apply not_starts_ok; vm_compute; reflexivity
  | |- ~ ends_in _ _ => apply not_ends_ok; vm_compute; reflexivity
  | |- ~ ends_white _ => apply not_ends_white_ok; vm_compute; reflexivity
  | |- ~ slots_like _ => apply not_slots_ok; vm_compute; reflexivity
  | |- hash_spelled _ _ => apply spelled_ok; vm_compute; reflexivity
  | |- tag_clean _ => apply tag_ok_sound; vm_compute; reflexivity
  | |- extra_key _ => apply key_ok_sound; vm_compute; reflexivity
  | |- NoDup _ => apply distinct_sound; vm_compute; reflexivity
  | |- encodes_to None _ _ => vm_compute; reflexivity
  | |- u64 _ => unfold u64; lia
  | |- i64 _ => unfold i64; lia
  | |- _ <> _ => discriminate
  | |- True => exact I
  | |- @eq bool _ _ => first [reflexivity | congruence]
  | |- (_ <= _ < _)%Z => lia
  | |- (_ <= _ <= _)%N => lia
  | |- _ /\ _ => split
  | |- Forall2 _ _ _ => constructor
  | |- Forall _ _ => constructor
  | |- forall _, _ => intros
  end.
Ltac conds := repeat easy_cond.
(** Proves that a message has the given text on the wire. *)
Tactic Notation "by_wire" uconstr(t) :=
  match goal with |- ?R ?p => refine (eq_ind_r R t _) end;
  match goal with |- @eq bytes _ _ => vm_compute; reflexivity | |- @eq (list byte) _ _ => vm_compute; reflexivity | |- _ => conds end.
