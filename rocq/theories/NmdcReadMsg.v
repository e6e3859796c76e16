(** Reading relations: all messages. *)
From Coq Require Import Permutation.
From Verif Require Import Base BaseFacts Num NumFacts NumSpec Utf8 Utf8Facts SpecText SpecHash SpecNmdc SpecRead NmdcText.
From Verif Require Import NmdcChat NmdcHub NmdcFiles NmdcUser NmdcMessage NmdcMsgFacts NmdcDecodeFacts NmdcReadFacts NmdcReadChat NmdcReadCmd NmdcReadFiles NmdcReadHub NmdcReadUser.

Lemma known_registered : map msg_type registered = known.
Proof. reflexivity. Qed.
Lemma lookup_cases l t : In (lookup l t) l /\ msg_type (lookup l t) = t \/ lookup l t = MRaw t [] /\ ~ In t (map msg_type l).
Proof.
  induction l as [|m l IH]; cbn; [auto|]. destruct (bytes_eqb_spec (msg_type m) t) as [E|N]; [auto|]. destruct IH as [[I E]|[E I]]; [auto|]. right. split; [exact E|]. intros [H|H]; auto.
Qed.
Lemma lift_ok {A} (c : A -> msg) p m : lift c p = (m, Ok tt) <-> exists x, p = (x, Ok tt) /\ m = c x.
Proof.
  destruct p as [x r]. unfold lift. cbn. split; [intros [= <- ->]; eauto|intros (y & [= <- ->] & ->); reflexivity].
Qed.

Lemma decoded_reads dec t data m : msg_unmarshal dec (new_message t) data = (m, Ok tt) -> msg_type m = t /\ reads dec data m.
Proof.
  intros H. assert (T : msg_type m = t).
  { rewrite <- (new_message_type t). change m with (fst (m, @Ok unit tt)). rewrite <- H. destruct (new_message t); reflexivity. }
  split; [exact T|]. clear T. unfold new_message in H. destruct (lookup_cases registered t) as [[I _]|[E N]]; set (m0 := lookup registered t) in *; clearbody m0.
  - unfold registered in I. cbn [In] in I. repeat (destruct I as [I|I]; [rewrite <- I in H; clear I; cbn [msg_unmarshal] in H;
      first [apply lift_ok in H as (x & H & ->)|match type of H with (_, noargs_unmarshal _) = _ => idtac end|injection H as <-];
      first [apply rd_name, name_msg_reads, H|apply rd_string, string_msg_reads, H|apply rd_text|apply rd_err, err_reads, H|apply rd_names, names_reads, H|apply rd_chat, chat_reads, H
            |apply rd_pm, pm_reads, H|apply rd_mcto, mcto_reads, H|apply rd_ucmd, ucmd_reads, H|apply rd_ctm, ctm_reads, H|apply rd_rctm, rctm_reads, H
            |apply rd_adcget, adcget_reads, H|apply rd_adcsnd, adcsnd_reads, H|apply rd_direction, direction_reads, H|apply rd_failover, failover_reads; reflexivity
            |apply rd_lock, lock_reads; reflexivity|apply rd_hubinfo, hubinfo_reads, H|apply rd_search, search_reads, H|apply rd_sr, sr_reads, H|apply rd_sa, sa_reads, H|apply rd_sp, sp_reads, H
            |apply rd_myinfo, myinfo_reads, H|apply rd_userip, userip_reads, H|apply rd_supports, supports_reads; reflexivity
            |destruct data; [injection H as <-; apply rd_noargs|discriminate H]]|]). destruct I.
  - rewrite E in H. injection H as <-. apply rd_raw. rewrite <- known_registered. exact N.
Qed.
Lemma reads_decoded dec data m : reads dec data m -> exists m', msg_unmarshal dec (new_message (msg_type m)) data = (m', Ok tt) /\ msg_alike m' m.
Proof.
  assert (K : forall A (c : A -> msg) x p, p = (x, Ok tt) -> exists m', lift c p = (m', Ok tt) /\ msg_alike m' (c x)) by (intros A c x p ->; eexists; split; [reflexivity|now left]).
  intros H. destruct H.
  - destruct k; apply K, name_msg_reads, H.
  - destruct k; apply K, string_msg_reads, H.
  - destruct k; eexists; (split; [reflexivity|now left]).
  - destruct k; eexists; (split; [reflexivity|now left]).
  - destruct k; apply K, err_reads, H.
  - destruct k; apply K, names_reads, H.
  - apply K, chat_reads, H.
  - apply K, pm_reads, H.
  - apply K, mcto_reads, H.
  - apply K, ucmd_reads, H.
  - apply K, ctm_reads, H.
  - apply K, rctm_reads, H.
  - apply K, adcget_reads, H.
  - apply K, adcsnd_reads, H.
  - apply K, direction_reads, H.
  - apply failover_reads in H. eexists. split; [reflexivity|left]. now subst.
  - apply lock_reads in H. eexists. split; [reflexivity|left]. now subst.
  - apply K, hubinfo_reads, H.
  - apply K, search_reads, H.
  - apply K, sr_reads, H.
  - apply K, sa_reads, H.
  - apply K, sp_reads, H.
  - apply K, userip_reads, H.
  - apply supports_reads in H. eexists. split; [reflexivity|left]. now subst.
  - apply myinfo_reads_back in H as (m' & H & A). exists (MMyInfo m'). split; [change (msg_type (MMyInfo m)) with (B "MyINFO"); change (new_message (B "MyINFO")) with (MMyInfo myinfo0); apply lift_ok; eauto|right; eauto].
  - cbn [msg_type]. exists (MRaw t data). split; [|now left]. unfold new_message. destruct (lookup_cases registered t) as [[I E]|[E _]]; [|now rewrite E].
    exfalso. apply H. rewrite <- known_registered. rewrite <- E. now apply in_map.
Qed.
Lemma alike_trans a b c : msg_alike a b -> msg_alike a c -> msg_alike b c.
Proof.
  intros [->|(x & y & -> & -> & E1 & P1)]; [auto|]. intros [<-|(x' & z & [= <-] & -> & E2 & P2)].
  - right. exists y, x. split; [reflexivity|]. split; [reflexivity|]. split; [rewrite E1; destruct x; reflexivity|now apply Permutation_sym].
  - right. exists y, z. split; [reflexivity|]. split; [reflexivity|]. split; [rewrite E1; exact E2|]. now rewrite <- P1.
Qed.
Lemma reads_unique dec data m m' : reads dec data m -> reads dec data m' -> msg_type m = msg_type m' -> msg_alike m m'.
Proof.
  intros H H' T. apply reads_decoded in H as (x & D & A). apply reads_decoded in H' as (x' & D' & A'). rewrite T, D' in D. injection D as ->. now apply (alike_trans x).
Qed.
