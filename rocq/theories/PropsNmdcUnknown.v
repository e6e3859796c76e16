(** Property C124: texts in an unknown encoding.
    Specification: SpecNmdcUnknown.v.  Proofs: NmdcUnknownFacts.v, NmdcAskedFacts.v. *)
From Verif Require Import Base SpecText SpecHash SpecNmdc SpecRead SpecFrame SpecReuse NmdcText NmdcChat NmdcHub NmdcFiles NmdcUser NmdcMessage NmdcTextFacts NmdcReadMsg NmdcOverFacts SpecNmdcLeft NmdcLeftFacts SpecNmdcUnknown NmdcUnknownFacts NmdcAskedFacts NmdcRetryFacts.

(** ** C124: unknown encodings, exactly *)
Theorem C124_reported : forall dec o data t, sized o -> ((exists m, msg_unmarshal dec o data = (m, Err (EUnknownEnc t))) <-> unknown_in dec o data t).
Proof. exact unknown_iff. Qed.
Print Assumptions C124_reported.
(** There is one text to report, it is not UTF-8, and the message is refused. *)
Theorem C124_text : forall dec o data t, sized o -> unknown_in dec o data t ->
  ~ utf8_text t /\ (forall t', unknown_in dec o data t' -> t' = t) /\ (exists m, left_by dec o data m) /\ forall m, ~ reads_over dec o data m.
Proof.
  intros dec o data t Sz U. apply (unknown_iff dec o data t Sz) in U as [m U]. split; [|split; [|split]].
  - assert (X : snd (msg_unmarshal dec o data) = Err (EUnknownEnc t)) by now rewrite U.
    apply unknown_origin in X as (p & _ & X). now apply text_unk in X as (u & _ & _ & N).
  - intros t' U'. apply (unknown_iff dec o data t' Sz) in U' as [m' U']. congruence.
  - exists m. exact (failed_left dec o data m _ Sz U).
  - intros m' R. apply over_decoded in R as (m1 & R & _); [|exact Sz]. congruence.
Qed.
Print Assumptions C124_text.
(** What another decoder can store and this one, which is defined everywhere, cannot is reported,
    except for the three types that replace the error. *)
Theorem C124_asked : forall dec d o data m, (forall u, exists t, encodes_to dec u t) -> sized o -> plain_texts o -> reads_over d o data m ->
  (exists m', reads_over dec o data m') \/ (exists t, unknown_in dec o data t).
Proof.
  intros dec d o data m T Sz P R. apply over_decoded in R as (m1 & R & _); [|exact Sz].
  assert (T' : forall u, exists t, run_codec dec u = Ok t) by (intros u; destruct (T u) as [t E]; exists t; now apply encodes_to_run).
  assert (X : snd (msg_unmarshal d o data) = Ok tt) by now rewrite R.
  destruct (asked dec d T' o data P Sz tt X) as [[[] Y]|[t Y]]; destruct (msg_unmarshal dec o data) as [m' r] eqn:E; cbn [snd] in Y; subst r.
  - left. exists m'. exact (decoded_over dec o data m' Sz E).
  - right. exists t. apply unknown_iff; [exact Sz|]. now exists m'.
Qed.
Print Assumptions C124_asked.

(** A decoder for Latin-1 text, on the bytes that occur below. *)
Definition latin1 (s : bytes) : option bytes := Some (flat_map (fun c => if beq c xe9 then [xc3; xa9] else [c]) s).
Example C124_case : Forall (fun c => let '(o, a, t) := c in unknown_in None o a t /\ exists m, reads_over (Some latin1) o a m)
  [(MChat (mk_chat [] []), B "<caf" ++ [xe9] ++ B "> hi", B "caf" ++ [xe9]);
   (MNames KOpList [], B "a$$" ++ [xe9] ++ B "$$b" ++ [xe9] ++ B "$$", [xe9]);
   (MHubInfo (mk_hubinfo [] [] [] 0 0 0 0 [] [] [] [] []), B "hub$" ++ [xe9] ++ B "$&#36;" ++ [xe9], B "$" ++ [xe9]);
   (MUserCommand (mk_ucmd 0 0 [] []), B "1 1 a$" ++ [xe9], [xe9])].
Proof.
  assert (K : forall o a t, sized o -> snd (msg_unmarshal None o a) = Err (EUnknownEnc t) -> snd (msg_unmarshal (Some latin1) o a) = Ok tt ->
    unknown_in None o a t /\ exists m, reads_over (Some latin1) o a m).
  { intros o a t Sz E F. split.
    - apply unknown_iff; [exact Sz|]. exists (fst (msg_unmarshal None o a)). rewrite <- E. apply surjective_pairing.
    - exists (fst (msg_unmarshal (Some latin1) o a)). apply decoded_over; [exact Sz|]. rewrite <- F. apply surjective_pairing. }
  repeat (constructor; [apply K; first [exact Logic.I|reflexivity]|]). constructor.
Qed.

(** The decoders of user commands and requests for files replace the error for a path or an identifier
    by one without the text (nmdc/msg_chat.go:335-339, nmdc/msg_files.go:69-70, 172-173). *)
Theorem C124_asked_refuted : ~ (forall dec d o data m, (forall u, exists t, encodes_to dec u t) -> sized o -> reads_over d o data m ->
  (exists m', reads_over dec o data m') \/ (exists t, unknown_in dec o data t)).
Proof.
  intros H. set (o := MUserCommand (mk_ucmd 0 0 [] [])). set (a := B "1 1 " ++ [xe9] ++ B "$x").
  destruct (H None (Some latin1) o a (fst (msg_unmarshal (Some latin1) o a))) as [[m' R]|[t U]].
  - intros u. exists u. reflexivity.
  - exact Logic.I.
  - apply decoded_over; [exact Logic.I|reflexivity].
  - apply over_decoded in R as (m1 & R & _); [discriminate|exact Logic.I].
  - apply unknown_iff in U as [m U]; [discriminate|exact Logic.I].
Qed.
Print Assumptions C124_asked_refuted.
Example C124_asked_refuted_case : Forall (fun c => let '(o, a) := c in
    snd (msg_unmarshal (Some latin1) o a) = Ok tt /\ (exists t, snd (msg_unmarshal None o a) = Err (EText t)) /\ forall t, ~ unknown_in None o a t)
  [(MUserCommand (mk_ucmd 0 0 [] []), B "1 1 " ++ [xe9] ++ B "$x");
   (MAdcGet (mk_adcget [] [] 0 0 false None), B "file " ++ [xe9] ++ B " 0 -1");
   (MAdcSnd (mk_adcsnd [] [] 0 0 false), B "file " ++ [xe9] ++ B " 0 5")].
Proof.
  assert (K : forall o a, sized o -> snd (msg_unmarshal (Some latin1) o a) = Ok tt -> (exists t, snd (msg_unmarshal None o a) = Err (EText t)) ->
    snd (msg_unmarshal (Some latin1) o a) = Ok tt /\ (exists t, snd (msg_unmarshal None o a) = Err (EText t)) /\ forall t, ~ unknown_in None o a t).
  { intros o a Sz E [x F]. split; [exact E|]. split; [now exists x|]. intros t U. apply unknown_iff in U as [m U]; [|exact Sz]. rewrite U in F. discriminate. }
  repeat (constructor; [apply K; [exact Logic.I|vm_compute; reflexivity|vm_compute; eexists; reflexivity]|]). constructor.
Qed.
