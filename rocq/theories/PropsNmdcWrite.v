(** Property C107: which NMDC messages are accepted by the encoder, and what is written for each. *)
From Verif Require Import Base SpecText SpecHash SpecNmdc SpecFrame SpecCommand SpecWrite Tiger NmdcText NmdcChat NmdcHub NmdcFiles NmdcUser NmdcMessage.
From Verif Require Import NmdcFrameFacts NmdcWriteFacts.

(** ** C107: the encoder *)
Theorem C107_written : forall enc m p, sized m -> (msg_marshal enc m = Ok p <-> writes enc m p).
Proof. exact writes_iff. Qed.
Print Assumptions C107_written.
Theorem C107_rejected : forall enc m, sized m -> ((exists e, msg_marshal enc m = Err e) <-> forall p, ~ writes enc m p).
Proof.
  intros enc m Hs. split.
  - intros [e E] p H. apply writes_iff in H; [|exact Hs]. congruence.
  - intros H. destruct (msg_marshal enc m) as [p|e|] eqn:E; [|eauto|now apply payload_total in E].
    destruct (H p). now apply writes_iff.
Qed.
Print Assumptions C107_rejected.
Theorem C107_unique : forall enc m p q, sized m -> writes enc m p -> writes enc m q -> p = q.
Proof. intros enc m p q Hs Hp Hq. apply writes_iff in Hp, Hq; try exact Hs. congruence. Qed.
Print Assumptions C107_unique.

(** With the name of the command around it: what Marshal returns. *)
Theorem C107_frame : forall enc m f, sized m -> (marshal enc m = Ok f <-> exists p, writes enc m p /\ framed (command m) p f).
Proof.
  intros enc m f Hs. split.
  - intros H. destruct (msg_marshal enc m) as [p|e|] eqn:E.
    + exists p. split; [now apply writes_iff|]. assert (N : msg_type m <> [] \/ p <> []).
      { destruct (msg_type m) eqn:T; [|left; discriminate]. right. intros ->. unfold marshal, marshal_to in H. rewrite E, T in H. discriminate. }
      destruct (marshal_to_frame enc [] m p E N) as (f' & F & G). unfold marshal in H. rewrite G in H. injection H as <-. exact F.
    + unfold marshal, marshal_to in H. rewrite E in H. discriminate.
    + unfold marshal, marshal_to in H. rewrite E in H. discriminate.
  - intros (p & Wp & F). apply writes_iff in Wp; [|exact Hs]. assert (N : msg_type m <> [] \/ p <> []).
    { change (command m) with (msg_type m) in F. inversion F; auto. }
    destruct (marshal_to_frame enc [] m p Wp N) as (f' & F' & G). unfold marshal. rewrite G. cbn [app]. f_equal. change (command m) with (msg_type m) in F.
    destruct F; inversion F'; subst; congruence.
Qed.
Print Assumptions C107_frame.

(** Messages of different kinds, also those that cannot be read back. *)
Definition hash0 : bytes := repeat x00 24.
Example C107_case :
  writes None (MChat (mk_chat (B "a<b") (B "1$ & 2|"))) (B "<a&lt;b> 1&#36; &amp; 2&#124;") /\
  writes None (MChat (mk_chat [] (B "<bob> hi"))) (B "<bob> hi") /\
  writes None (MUserCommand (mk_ucmd 1 3 [B "Menu"; B "x\y"] (B "<%[mynick]> $"))) (B "1 3 Menu\x\y $<%[mynick]> &#36;") /\
  writes None (MUserCommand (mk_ucmd (-1) 3 [] [])) (B "18446744073709551615 3") /\
  writes None (MSearch (mk_search [] (B "me") false false 5 0 (B "a b") None)) (B "Hub:me F?T?5?1?a$b") /\
  writes None (MSA (mk_sa hash0 (B "1.2.3.4:5"))) (B "AAAAAAAAAAAAAAAAAAAAAAAAAAAAAAAAAAAAAAA 1.2.3.4:5") /\
  writes None (MDirection (mk_direction true 40000)) (B "Upload 40000") /\
  writes None (MNames KOpList []) (B "$$").
Proof. repeat split; (apply writes_iff; [try (split; [reflexivity|exact I]); try reflexivity; try exact I|vm_compute; reflexivity]). Qed.
Example C107_refused :
  (forall p, ~ writes None (MChat (mk_chat (B "a$b") (B "x"))) p) /\
  (forall p, ~ writes None (MString KHubName [x61; x00]) p) /\
  (forall p, ~ writes None (MCtm (mk_ctm (B "n") (B "s") (B "h:1") 0 false)) p) /\
  (forall p, ~ writes None (MSearch (mk_search (B "h:1") [] false false 0 9 [] None)) p) /\
  (forall p, ~ writes None (MSR (mk_sr (B "n") [] false 0 0 0 [] None [] [])) p) /\
  (forall p, ~ writes (Some (fun _ => None)) (MName KHello (B "n")) p).
Proof. repeat split; (apply C107_rejected; [try exact I; try reflexivity|eexists; vm_compute; reflexivity]). Qed.
