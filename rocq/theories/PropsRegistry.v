(** Registration of message types (C120). *)
From Verif Require Import Base BaseFacts NmdcMessage AdcMessage SpecFrame NmdcHub NmdcDecide Registry SpecRegistry RegistryFacts.
From Coq Require Import Sorting.Permutation Sorting.Sorted.

(** After any calls of RegisterMessage, recovered or not, a call has panicked exactly when an earlier one had its name. *)
Theorem C120_calls : forall V (calls : list (gotype V * V)) r panics, register_all calls [] = (r, panics) ->
  length panics = length calls /\
  forall before c after, calls = before ++ c :: after ->
    (nth (length before) panics false = true <-> exists b, In b before /\ call_name b = call_name c).
Proof.
  intros V calls r ps E. destruct (register_spec calls _ _ _ E) as (_ & L & _ & P). split; [exact L|].
  intros b c a H. rewrite (P b c a H). split; [intros [X|X]; [now contradiction X|exact X]|now right].
Qed.
Print Assumptions C120_calls.

(** NewMessage creates the zero value of the type of the first call with the name, or a raw message with the name. *)
Theorem C120_new : forall V (calls : list (gotype V * V)) r panics, register_all calls [] = (r, panics) ->
  forall n,
    (forall c, first_call calls n c -> create r n = CNew (fst c) (go_zero (fst c)) /\ has_type r n = true) /\
    (never calls n -> create r n = CRaw n /\ has_type r n = false).
Proof.
  intros V calls r ps E n. destruct (register_spec calls _ _ _ E) as (_ & _ & F & _). split.
  - intros [t v] H. assert (X : find_type r n = Some t) by (apply F; right; split; [reflexivity|now exists v]). unfold create, has_type. now rewrite X.
  - intros H. assert (X : find_type r n = None).
    { destruct (find_type r n) as [t|] eqn:X; [|reflexivity]. apply F in X. destruct X as [X|(_ & v & X)]; [discriminate|]. rewrite never_iff in H. now apply H in X. }
    unfold create, has_type. now rewrite X.
Qed.
Print Assumptions C120_new.

(** RegisteredTypes lists every registered name once, in increasing order, however the map is visited. *)
Theorem C120_types : forall V (calls : list (gotype V * V)) r panics visit, register_all calls [] = (r, panics) -> Permutation r visit ->
  Sorted string_le (type_list visit) /\ NoDup (type_list visit) /\
  forall n, In n (type_list visit) <-> exists c, In c calls /\ call_name c = n.
Proof.
  intros V calls r ps visit E P. destruct (register_spec calls _ _ _ E) as (D & _ & F & _).
  destruct (types_spec r visit (D ltac:(constructor)) P) as (A & B & C). split; [exact A|]. split; [exact B|]. intros n. rewrite C. split.
  - destruct (find_type r n) as [t|] eqn:X; [intros _|intros []; reflexivity]. apply F in X. destruct X as [X|(_ & v & b & a & -> & N & _)]; [discriminate|].
    exists (t, v). split; [|exact N]. apply in_or_app. right. now left.
  - intros (c & I1 & N) X. assert (never calls n) as Y.
    { apply never_iff. intros [t v] Y. assert (find_type r n = Some t) by (apply F; right; split; [reflexivity|now exists v]). congruence. }
    unfold never in Y. rewrite Forall_forall in Y. now apply (Y c).
Qed.
Print Assumptions C120_types.

(** The packages load without a panic, and whatever a program registers afterwards, their messages are created and
    received as before. *)
Theorem C120_nmdc : forall more r panics, register_all (nmdc_init ++ more) [] = (r, panics) ->
  (exists rest, panics = repeat false (length nmdc_init) ++ rest) /\
  (forall n, In n (map msg_type NmdcMessage.registered) -> exists t, create r n = CNew t (new_message n)) /\
  (forall n, never more n -> ~ In n (map msg_type NmdcMessage.registered) -> create r n = CRaw n /\ new_message n = MRaw n []).
Proof.
  intros more r ps E. rewrite register_app in E. pose proof (f_equal fst E) as E1. pose proof (f_equal snd E) as E2. cbn [fst snd] in E1, E2. clear E.
  assert (D : NoDup (map call_name nmdc_init)).
  { unfold nmdc_init. rewrite map_map. apply distinct_sound. vm_compute. reflexivity. }
  rewrite (register_new nmdc_init [] D) in E1, E2 by reflexivity. cbn [fst snd app] in E1, E2. split; [eauto|].
  set (r0 := map (fun c => (call_name c, fst c)) nmdc_init) in *.
  destruct (register_all more r0) as [r1 ps1] eqn:M. destruct (register_spec _ _ _ _ M) as (_ & _ & F & _). cbn [fst] in E1. subst r1.
  assert (K : forall n, find_type r0 n = if is_registered n then Some (nmdc_type (new_message n)) else None).
  { intros n. unfold r0, nmdc_init, new_message, is_registered. generalize NmdcMessage.registered as l. induction l as [|m l IH]; [reflexivity|].
    cbn [map find_type existsb lookup fst]. change (call_name (nmdc_type m, m)) with (msg_type m). destruct (bytes_eqb (msg_type m) n); [reflexivity|exact IH]. }
  split.
  - intros n H. assert (R : is_registered n = true).
    { unfold is_registered. apply existsb_exists. apply in_map_iff in H. destruct H as (m & <- & H). exists m. split; [exact H|]. now apply bytes_eqb_true. }
    exists (nmdc_type (new_message n)). unfold create. rewrite (proj2 (F n (nmdc_type (new_message n)))); [reflexivity|]. left. now rewrite K, R.
  - intros n N H. assert (R : is_registered n = false).
    { destruct (is_registered n) eqn:R; [|reflexivity]. exfalso. apply H. unfold is_registered in R. apply existsb_exists in R.
      destruct R as (m & A & B). apply bytes_eqb_true in B. subst n. now apply in_map. }
    split.
    + unfold create. destruct (find_type r n) as [t|] eqn:X; [|reflexivity]. apply F in X. rewrite K, R in X. destruct X as [X|(_ & v & X)]; [discriminate|].
      rewrite never_iff in N. now apply N in X.
    + unfold new_message. clear - H. induction NmdcMessage.registered as [|m l IH]; [reflexivity|]. cbn [lookup map In] in *.
      destruct (bytes_eqb (msg_type m) n) eqn:E; [apply bytes_eqb_true in E; tauto|]. apply IH. tauto.
Qed.
Print Assumptions C120_nmdc.

(** The same for the package adc, for both results of decoding. *)
Theorem C120_adc : forall pf more r panics, register_all (adc_init ++ more) [] = (r, panics) ->
  (exists rest, panics = repeat false (length adc_init) ++ rest) /\
  forall n data, In n (map cmd registry) ->
    receive (fun _ d v => unmarshal pf d v) r n data = (do m <- unmarshal_message pf n data; Ok (inr m)).
Proof.
  intros pf more r ps E. rewrite register_app in E. pose proof (f_equal fst E) as E1. pose proof (f_equal snd E) as E2. cbn [fst snd] in E1, E2. clear E.
  assert (D : NoDup (map call_name adc_init)) by (apply distinct_sound; vm_compute; reflexivity).
  rewrite (register_new adc_init [] D) in E1, E2 by reflexivity. cbn [fst snd app] in E1, E2. split; [eauto|].
  set (r0 := map (fun c => (call_name c, fst c)) adc_init) in *.
  destruct (register_all more r0) as [r1 ps1] eqn:M. destruct (register_spec _ _ _ _ M) as (_ & _ & F & _). cbn [fst] in E1. subst r1.
  assert (K : forall n, find_type r0 n = match registered n with Some m => Some (adc_type m) | None => None end).
  { intros n. unfold r0, adc_init, registered. generalize registry as l. induction l as [|m l IH]; [reflexivity|].
    cbn [map find_type find fst]. change (call_name (adc_type m, m)) with (cmd m). destruct (bytes_eqb (cmd m) n); [reflexivity|exact IH]. }
  intros n data H. destruct (registered n) as [m|] eqn:R.
  - unfold receive, unmarshal_message. rewrite (proj2 (F n (adc_type m))), R by (left; now rewrite K, R). reflexivity.
  - exfalso. apply in_map_iff in H. destruct H as (m & <- & H). apply (List.find_none _ _ R) in H. now rewrite (proj2 (bytes_eqb_true _ _) eq_refl) in H.
Qed.
Print Assumptions C120_adc.

(** What UnmarshalMessage gives for the types a program registers: the value decoded if the value has the methods. *)
Theorem C120_receive : forall V (decode : gotype V -> bytes -> V -> res V) calls r panics, register_all calls [] = (r, panics) ->
  forall n data,
    (never calls n -> receive decode r n data = Ok (inl data)) /\
    (forall c, first_call calls n c ->
       (forall e, decode (fst c) data (go_zero (fst c)) = Err e -> receive decode r n data = Err e) /\
       (forall v, decode (fst c) data (go_zero (fst c)) = Ok v -> go_pointer (fst c) = false -> receive decode r n data = Ok (inr v)) /\
       (forall v, decode (fst c) data (go_zero (fst c)) = Ok v -> go_pointer (fst c) = true -> receive decode r n data = Panic)).
Proof.
  intros V decode calls r ps E n data. destruct (register_spec calls _ _ _ E) as (_ & _ & F & _). split.
  - intros H. unfold receive. destruct (find_type r n) as [t|] eqn:X; [|reflexivity]. apply F in X. destruct X as [X|(_ & v & X)]; [discriminate|].
    rewrite never_iff in H. now apply H in X.
  - intros [t v] H. assert (X : find_type r n = Some t) by (apply F; right; split; [reflexivity|now exists v]). unfold receive. rewrite X. cbn [fst].
    repeat split; intros; rewrite H0; cbn [bind]; try rewrite H1; reflexivity.
Qed.
Print Assumptions C120_receive.

(** A type that can be registered can not always be received: UnmarshalMessage panics if only its pointer is a Message. *)
Theorem C120_receive_refuted : ~ (forall V (decode : gotype V -> bytes -> V -> res V) calls r panics, register_all calls [] = (r, panics) ->
  forall n data c v, first_call calls n c -> decode (fst c) data (go_zero (fst c)) = Ok v -> receive decode r n data = Ok (inr v)).
Proof.
  intros H. set (t := mkGo (fun _ : unit => B "XYZ") tt true).
  specialize (H unit (fun _ _ v => Ok v) [(t, tt)] _ _ eq_refl (B "XYZ") [] (t, tt) tt). cut (first_call [(t, tt)] (B "XYZ") (t, tt)).
  - intros C. specialize (H C eq_refl). vm_compute in H. discriminate.
  - exists [], []. repeat split. constructor.
Qed.
Print Assumptions C120_receive_refuted.

(** A message created by name has that name if the values of its type all have the same. *)
Theorem C120_name : forall V (calls : list (gotype V * V)) r panics, register_all calls [] = (r, panics) ->
  Forall (fun c => same_name (fst c)) calls -> forall n, created_type (create r n) = n.
Proof.
  intros V calls r ps E S n. destruct (register_spec calls _ _ _ E) as (_ & _ & F & _). unfold create.
  destruct (find_type r n) as [t|] eqn:X; [|reflexivity]. apply F in X. destruct X as [X|(_ & v & b & a & -> & N & _)]; [discriminate|].
  rewrite Forall_forall in S. cbn [created_type]. rewrite <- N. apply (S (t, v)). apply in_or_app. right. now left.
Qed.
Print Assumptions C120_name.
(** Otherwise it need not have it: a RawMessage registered for a command is created without its name. *)
Theorem C120_name_refuted : ~ (forall V (calls : list (gotype V * V)) r panics, register_all calls [] = (r, panics) ->
  forall n, created_type (create r n) = n).
Proof.
  intros H. specialize (H _ [(mkGo msg_type (MRaw [] []) true, MRaw (B "Foo") [])] _ _ eq_refl (B "Foo")). vm_compute in H. discriminate.
Qed.
Print Assumptions C120_name_refuted.

(** Three registrations, the last of which panics because the package has its name. *)
Example C120_case : exists r panics,
  let foo := mkGo (fun _ : msg => B "Foo") (MRaw (B "Foo") []) true in
  let quit := mkGo (fun _ : msg => B "Quit") (MRaw (B "Quit") []) true in
  register_all (nmdc_init ++ [(foo, MRaw [] []); (quit, MRaw [] [])]) [] = (r, panics) /\
  panics = repeat false 49 ++ [true] /\ create r (B "Foo") = CNew foo (MRaw (B "Foo") []) /\
  create r (B "Quit") = CNew (nmdc_type (MName KQuit [])) (MName KQuit []) /\ create r (B "Bar") = CRaw (B "Bar") /\
  firstn 3 (type_list (rev r)) = [[]; B "ADCGET"; B "ADCSND"].
Proof. eexists. eexists. cbv zeta. split; [vm_compute; reflexivity|]. repeat split; vm_compute; reflexivity. Qed.
