(** Properties C108 and C109: exactly which NMDC messages arrive unchanged between two sides using
    UTF-8, and what happens to messages which are decoded and sent on. *)
From Coq Require Import Permutation.
From Verif Require Import Base SpecText SpecHash SpecNmdc SpecFrame SpecRead SpecWrite SpecSurvive Tiger NmdcText NmdcChat NmdcHub NmdcFiles NmdcUser NmdcMessage.
From Verif Require Import BaseFacts NmdcReadFacts NmdcReadMsg NmdcFrameFacts NmdcWriteFacts NmdcSurviveFacts NmdcSurviveChat NmdcSurviveUser NmdcStreamFacts NmdcReuseFacts.

(** ** C108: exactly the messages which fit arrive *)
Theorem C108_survives : forall m, sized m ->
  ((exists p m', msg_marshal None m = Ok p /\ msg_unmarshal None (new_message (msg_type m)) p = (m', Ok tt) /\ msg_alike m' m) <-> fits m).
Proof.
  intros m Z. rewrite <- (arrives_iff m Z). split.
  - intros (p & m' & W & R & A). exists p. split; [now apply writes_iff|]. apply decoded_reads in R as [_ R]. now apply (reads_alike p m m').
  - intros (p & W & R). apply writes_iff in W; [|exact Z]. apply reads_decoded in R as (m' & R & A). eauto.
Qed.
Print Assumptions C108_survives.
(* messages of several kinds which fit, as their payload shows *)
Ltac arrives_by := match goal with |- fits ?m => apply (C108_survives m); [vm_compute; exact I || reflexivity|]; eexists; eexists; split; [vm_compute; reflexivity|split; [vm_compute; reflexivity|now left]] end.
Example C108_chat : fits (MChat (mk_chat (B "b<o>b & co") (B "<bob> costs 5$ | &#36;"))).
Proof. arrives_by. Qed.
Example C108_search : fits (MSearch (mk_search [] (B "bob") true false 1000 1 (B "two words & more") None)).
Proof. arrives_by. Qed.
Example C108_myinfo : fits (MMyInfo (mk_myinfo (B "bob") (B "a <b> c") (B "x y") (B "1 2") "A" 1 (-2) 3 4 [(B "K", B "v:w"); (B "L", [])] (B "5") x01 (B "a@b") 18446744073709551615)).
Proof. arrives_by. Qed.
Example C108_path : fits (MSR (mk_sr (B "bob") [B "dir"; B "a file 3/4.txt"] false 5 1 (-2) (B "a hub") None (B "1.2.3.4:411") (B "al"))).
Proof. arrives_by. Qed.
(* and messages which do not fit: each of them is refused or arrives as something else *)
Ltac lost_by := match goal with |- ~ fits ?m => let F := fresh in let p := fresh "p" in let m' := fresh "m" in let W := fresh "W" in let R := fresh "R" in let A := fresh "A" in
  intros F; apply (C108_survives m) in F as (p & m' & W & R & A); [|vm_compute; exact I || reflexivity];
  vm_compute in W; (discriminate W || (injection W as <-; vm_compute in R;
  (discriminate R || (injection R as <-; destruct A as [A|(x & y & A & _)]; [discriminate A|discriminate A || (destruct A; discriminate)])))) end.
Example C108_nameless : ~ fits (MChat (mk_chat [] (B "<bob> hi"))).
Proof. lost_by. Qed.
Example C108_legacy : ~ fits (MChat (mk_chat (B "bob") (B "the code /%DCN036%/"))).
Proof. lost_by. Qed.
Example C108_long_name : ~ fits (MName KHello (repeat "&"%byte 100)).
Proof. lost_by. Qed.
Example C108_slots_name : ~ fits (MSR (mk_sr (B "bob") [B "disc 1/2"] false 5 1 2 (B "a hub") None (B "1.2.3.4:411") [])).
Proof. lost_by. Qed.

(** ** C109: messages which are decoded and sent on *)
(* they arrive at the third side as they were decoded exactly if they fit *)
Theorem C109_relayed : forall t p m, msg_unmarshal None (new_message t) p = (m, Ok tt) ->
  ((exists q m', msg_marshal None m = Ok q /\ msg_unmarshal None (new_message (msg_type m)) q = (m', Ok tt) /\ msg_alike m' m) <-> fits m).
Proof.
  intros t p m D. apply C108_survives. pose proof (sized_after None (new_message t) p (proj2 (new_message_cleared t))) as Z. now rewrite D in Z.
Qed.
Print Assumptions C109_relayed.
(* finding: whoever sends a line with an empty name can make a hub which sends it on as it decoded it
   send exactly the bytes of a line of any other user *)
Theorem C109_impersonation : forall name text, n_ok name -> name <> [] -> ~ In "<"%byte name -> ~ In ">"%byte name -> t_ok text ->
  exists p q m,
    msg_unmarshal None (new_message []) p = (MChat m, Ok tt) /\ ch_name m = [] /\
    msg_marshal None (MChat m) = Ok q /\ msg_marshal None (MChat (mk_chat name text)) = Ok q /\
    msg_unmarshal None (new_message []) q = (MChat (mk_chat name text), Ok tt).
Proof.
  intros n t Hn N0 A1 A2 Ht. pose proof (forged_read n t Hn Ht) as R. destruct (forged_written n t Hn A1 A2 N0 Ht) as [W1 W2].
  exists (B "<> " ++ es (forged n t)), (B "<" ++ en n ++ B "> " ++ es t), (mk_chat [] (forged n t)).
  apply reads_decoded in R as (m1 & R & [->|(x & y & _ & E & _)]); [|discriminate]. apply writes_iff in W1, W2; try exact I.
  repeat (split; [assumption || reflexivity|]).
  assert (F : fits (MChat (mk_chat n t))) by (split; [exact Ht|left; now split]).
  apply C108_survives in F as (q & m' & W & D & A); [|exact I]. rewrite W2 in W. injection W as <-.
  destruct A as [->|(x & y & _ & E & _)]; [exact D|discriminate].
Qed.
Print Assumptions C109_impersonation.
(* the administrator never said this *)
Example C109_case :
  msg_unmarshal None (new_message []) (B "<> <admin> send me your password") = (MChat (mk_chat [] (B "<admin> send me your password")), Ok tt) /\
  msg_marshal None (MChat (mk_chat [] (B "<admin> send me your password"))) = Ok (B "<admin> send me your password") /\
  msg_unmarshal None (new_message []) (B "<admin> send me your password") = (MChat (mk_chat (B "admin") (B "send me your password")), Ok tt).
Proof. repeat split; vm_compute; reflexivity. Qed.
(* the hypotheses hold for this name and text *)
Example C109_instance : n_ok (B "admin") /\ t_ok (B "send me your password").
Proof.
  assert (F : fits (MChat (mk_chat (B "admin") (B "send me your password")))) by arrives_by.
  destruct F as [T [[_ N]|[E _]]]; [now split|discriminate E].
Qed.
(* another message which was decoded and does not arrive when it is sent on *)
Example C109_lost : exists p m, msg_unmarshal None (new_message (B "Hello")) p = (MName KHello m, Ok tt) /\ ~ fits (MName KHello m).
Proof. exists (repeat "&"%byte 100), (repeat "&"%byte 100). split; [vm_compute; reflexivity|lost_by]. Qed.
