(** Properties C139 to C141: Unmarshal and Marshal of structures of a program, and structures that arrive unchanged.
    Specification: SpecReflect.v.  Proofs: AdcReflectFacts.v, AdcReflectPackage.v, AdcReflectArrive.v. *)
From Verif Require Import Base BaseFacts AdcText AdcValue AdcMessage AdcLeft AdcPacket AdcReuse AdcReflect SpecText SpecAdc SpecAdcMessage SpecAdcWrite SpecAdcReuse SpecReflect
  AdcMessageFacts AdcReflectFacts AdcReflectPackage AdcReflectArrive PropsAdcPacket PropsAdcReuse.
From Verif Require AdcReuseFacts PropsAdcWrite.
From Coq Require Import Lia ZArith.

(** ** C139: Unmarshal *)

(** Unmarshal leaves the values of the specification, and ends as there: for every structure, every method UnmarshalADC of the
    types of its fields, every text and all values the fields have before. *)
Theorem C139_decoded M pf fs s ws olds vs c : separated s ws -> length fs = length olds ->
  ((exists e, g_unmarshal M pf fs s olds = (vs, e) /\ concluded e = c) <-> struct_read M pf fs ws olds vs c).
Proof.
  intros W L. unfold g_unmarshal. rewrite (separated_split _ _ W). split.
  - intros (e & H & <-). now apply fields_sound.
  - apply fields_complete.
Qed.
Print Assumptions C139_decoded.

(** Fields hold values of their types if the methods leave such values. *)
Theorem C139_typed M pf fs s olds vs e : faithful M fs ->
  Forall2 (fun f v => typed (gf_type f) v) fs olds -> g_unmarshal M pf fs s olds = (vs, e) -> Forall2 (fun f v => typed (gf_type f) v) fs vs.
Proof.
  intros K T H. apply (struct_typed M pf fs (split_byte " " s) olds vs (concluded e)); [|assumption..].
  apply fields_sound; [clear H K; now induction T; cbn; congruence|exact H].
Qed.
Print Assumptions C139_typed.

(** The argument: a method of its own decides, a structure behind a pointer is decoded as above, anything else fails. *)
Theorem C139_argument M pf s o vs e : g_unmarshal_any M pf s o = (vs, e) ->
  match o with
  | TOwn m => vs = None /\ (concluded e = Fine <-> m s = MDone) /\ (concluded e = Crashed <-> m s = MPanic)
  | TPointer (Some (fs, olds)) => exists vs', vs = Some vs' /\ g_unmarshal M pf fs s olds = (vs', e)
  | _ => vs = None /\ concluded e = WrongType
  end.
Proof.
  destruct o as [m|[[fs olds]|]| |]; cbn [g_unmarshal_any]; [| |intros [= <- <-]; now split..].
  - intros [= <- <-]. split; [reflexivity|]. destruct (m s); cbn; split; split; congruence.
  - destruct (g_unmarshal M pf fs s olds) as [vs' e'] eqn:E. intros [= <- <-]. now exists vs'.
Qed.
Print Assumptions C139_argument.

(** A successful call stores the number that was written.  This is false: fields of 16 bits keep the lower bits of numbers of 32 bits. *)
Theorem C139_truncated_refuted : ~ (forall M pf n w x z z' c, c = Fine -> plain M (GInt n w) -> signed_decimal x z ->
  (exists e, g_unmarshal M pf [mkField (B "Port") true (B "PO") (GInt n w)] (B "PO" ++ x) [VInt 0] = ([VInt z'], e) /\ concluded e = c) -> z' = z).
Proof.
  intros H. specialize (H (fun _ => no_methods) (fun _ _ => FErr) 0 Bits16 (B "70000") 70000%Z 4464%Z Fine eq_refl).
  assert (4464 = 70000)%Z; [|discriminate]. apply H.
  - intros n _. reflexivity.
  - apply (parse_int_iff Bits16); [discriminate|reflexivity].
  - exists EndDone. split; vm_compute; reflexivity.
Qed.
Print Assumptions C139_truncated_refuted.

(** For the messages of the package this is Unmarshal as in C66 to C73, C101 and C104. *)
Theorem C139_package pf t s old : (forall x z, pf false x = FInt z -> int64 z) ->
  match unmarshal_struct (pf false) (fields_of t) s old with
  | Ok v => g_unmarshal package_methods pf (map package_field (fields_of t)) s (package_vals (fields_of t) old) = (package_vals (fields_of t) v, EndDone)
  | Err e => exists n, g_unmarshal package_methods pf (map package_field (fields_of t)) s (package_vals (fields_of t) old) =
      (package_vals (fields_of t) (fields_left (pf false) (fields_of t) (split_byte " " s) old), EndField n e)
  | Panic => snd (g_unmarshal package_methods pf (map package_field (fields_of t)) s (package_vals (fields_of t) old)) = EndPanic
  end.
Proof. intros I. exact (fields_agree pf I (fields_of t) (known_fields t) (split_byte " " s) old). Qed.
Print Assumptions C139_package.

(** A structure of a program: a word of a type that decodes itself, a text, a port of 16 bits, two lists and a pointer *)
Definition sample_methods (n : nat) : gmethods :=
  match n with
  | 7 => mkMethods (Some (fun v buf => match v with VStr s => (buf ++ rev s, MDone) | _ => (buf, MFail (EText "bad")) end)) None
           (Some (fun old x => match x with [] => (old, MFail (EText "empty")) | _ => (VStr (rev x), MDone) end))
  | _ => no_methods
  end.
(** Its fields *)
Definition sample : list gfield :=
  [mkField (B "ID") true (B "#") (GString 7); mkField (B "note") false [] (GBool 0); mkField (B "Nick") true (B "NI") (GString 0);
   mkField (B "Port") true (B "PO,req") (GInt 0 Bits16); mkField (B "Tags") true (B "TA") (GSlice 0 (GString 0));
   mkField (B "Codes") true (B "CO") (GSlice 0 (GInt 0 Bits32)); mkField (B "Age") true (B "AG") (GPtr (GInt 0 Bits64))].
Example C139_case :
  separated (B "abc NIa\sb PO70000 TAx CO1 TAy CO-2 AG5") [B "abc"; B "NIa\sb"; B "PO70000"; B "TAx"; B "CO1"; B "TAy"; B "CO-2"; B "AG5"] /\
  struct_read sample_methods (fun _ _ => FErr) sample [B "abc"; B "NIa\sb"; B "PO70000"; B "TAx"; B "CO1"; B "TAy"; B "CO-2"; B "AG5"]
    (map (fun f => blank (gf_type f)) sample)
    [VStr (B "cba"); VBool false; VStr (B "a b"); VInt 4464; VSlice (Some [VStr (B "x"); VStr (B "y")]);
     VSlice (Some [VInt 1; VInt (-2)]); VPtr (Some (VInt 5))] Fine /\
  struct_read sample_methods (fun _ _ => FErr) sample [B "abc"; B "NIx"; B "CO1"; B "CO3000000000"; B "AG5"]
    (map (fun f => blank (gf_type f)) sample)
    [VStr (B "cba"); VBool false; VStr (B "x"); VInt 0; VSlice None; VSlice None; VPtr None] (WrongField (B "Codes")) /\
  faithful sample_methods sample.
Proof.
  assert (G : forall s ws, separated s ws -> forall olds, length sample = length olds ->
    struct_read sample_methods (fun _ _ => FErr) sample ws olds (fst (g_unmarshal sample_methods (fun _ _ => FErr) sample s olds))
      (concluded (snd (g_unmarshal sample_methods (fun _ _ => FErr) sample s olds)))).
  { intros s ws W olds L. apply (C139_decoded _ _ _ s ws olds _ _ W L). eexists. split; [apply surjective_pairing|reflexivity]. }
  assert (W1 : separated (B "abc NIa\sb PO70000 TAx CO1 TAy CO-2 AG5") [B "abc"; B "NIa\sb"; B "PO70000"; B "TAx"; B "CO1"; B "TAy"; B "CO-2"; B "AG5"]).
  { split; [discriminate|]. split; [|reflexivity]. repeat constructor; cbn; intuition discriminate. }
  assert (W2 : separated (B "abc NIx CO1 CO3000000000 AG5") [B "abc"; B "NIx"; B "CO1"; B "CO3000000000"; B "AG5"]).
  { split; [discriminate|]. split; [|reflexivity]. repeat constructor; cbn; intuition discriminate. }
  split; [exact W1|]. split; [exact (G _ _ W1 (map (fun f => blank (gf_type f)) sample) eq_refl)|].
  split; [exact (G _ _ W2 (map (fun f => blank (gf_type f)) sample) eq_refl)|].
  intros f t d I P (n & N & D). assert (n = 7) as -> by (do 8 (destruct n as [|n]; [reflexivity || discriminate|]); discriminate).
  assert (t = GString 7) as ->.
  { cbn in I. repeat destruct I as [<-|I]; try contradiction; cbn in P;
      repeat match goal with Q : part _ _ |- _ => inversion Q; subst; clear Q; cbn in N; try discriminate end; reflexivity. }
  injection D as <-. intros old x v r Y H. destruct x; injection H as <- <-; [exact Y|exact Logic.I].
Qed.

(** ** C140: Marshal *)

(** Marshal writes what the specification says and ends as there, whatever the buffer holds before. *)
Theorem C140_encoded M fs vs buf buf' c : Forall2 (fun f v => typed (gf_type f) v) fs vs ->
  ((exists e, g_marshal M fs vs buf = (buf', e) /\ concluded e = c) <-> struct_written M fs vs buf true buf' c).
Proof.
  intros T. split.
  - intros (e & H & <-). now apply marshal_sound.
  - intros H. now apply marshal_complete.
Qed.
Print Assumptions C140_encoded.

(** The argument: nil is written as nothing, a method of its own decides, structures are written as above whether by value or
    by pointer, anything else fails and writes nothing. *)
Theorem C140_argument M o buf buf' e : g_marshal_any M o buf = (buf', e) ->
  match o with
  | SNil => buf' = buf /\ concluded e = Fine
  | SOwn m => exists r, m buf = (buf', r) /\ (concluded e = Fine <-> r = MDone) /\ (concluded e = Crashed <-> r = MPanic)
  | SStruct fs vs | SPointer (Some (fs, vs)) => g_marshal M fs vs buf = (buf', e)
  | _ => buf' = buf /\ concluded e = WrongType
  end.
Proof.
  destruct o as [|m|fs vs|[[fs vs]|]|]; cbn [g_marshal_any]; try (intros [= <- <-]; now split); try (now intros H).
  destruct (m buf) as [b r]. intros [= <- <-]. exists r. split; [reflexivity|]. destruct r; cbn; split; split; congruence.
Qed.
Print Assumptions C140_argument.

(** If the methods append to the buffer, so does Marshal: structures are then messages as in C134, in packets, in MustMarshal and
    in the calls of a writer. *)
Theorem C140_message M name fs vs : appending_methods M -> exists d r, gives (g_message M name (SStruct fs vs)) d r /\
  forall buf buf' e, g_marshal M fs vs buf = (buf', e) -> buf' = buf ++ d /\ (concluded e = Fine <-> r = MDone) /\ (concluded e = Crashed <-> r = MPanic).
Proof.
  intros A. destruct (marshal_appends M A fs vs true) as (x & e & H).
  exists x, match e with EndDone => MDone | EndField _ e | EndError e => MFail e | EndPanic => MPanic end. split.
  - intros b. cbn [c_marshal g_message g_marshal_any]. unfold g_marshal. now rewrite H.
  - intros buf buf' e' E. unfold g_marshal in E. rewrite H in E. injection E as <- <-. split; [reflexivity|]. destruct e; cbn; split; split; congruence.
Qed.
Print Assumptions C140_message.

(** For the messages of the package this is Marshal as in C109 and C110; it does not fail. *)
Theorem C140_package t v buf : g_marshal package_methods (map package_field (fields_of t)) (package_vals (fields_of t) v) buf =
  (buf ++ marshal_struct (fields_of t) v, EndDone).
Proof. exact (package_marshal t v buf). Qed.
Print Assumptions C140_package.

(** Marshal does not panic by itself.  This is false: a field whose values cannot be compared, such as a map, makes it panic
    unless it is required, as does a field that is not exported but has a tag. *)
Theorem C140_panic_refuted : ~ (forall fs vs buf, Forall2 (fun f v => typed (gf_type f) v) fs vs ->
  concluded (snd (g_marshal (fun _ => no_methods) fs vs buf)) <> Crashed).
Proof. intros H. apply (H [mkField (B "Map") true (B "MA") (GData 0 false [])] [VData []] []); [repeat constructor|reflexivity]. Qed.
Print Assumptions C140_panic_refuted.
(** With fields that are exported and can be compared, and methods that do not panic, it does not. *)
Theorem C140_no_panic M fs vs buf : Forall (fun f => gf_exported f = true /\ ~ incomparable (gf_type f)) fs ->
  (forall t v m, writes_itself M t v m -> forall b, snd (m b) <> MPanic) -> Forall2 (fun f v => typed (gf_type f) v) fs vs ->
  concluded (snd (g_marshal M fs vs buf)) <> Crashed.
Proof.
  intros X A T. destruct (g_marshal M fs vs buf) as [buf' e] eqn:E. assert (S : struct_written M fs vs buf true buf' (concluded e)).
  { apply C140_encoded; [assumption|]. exists e. now split. }
  cbn [snd]. clear E T. assert (V : forall t v b b' r, value_written M t v b b' r -> r <> Crash).
  { intros t v b b' r. induction 1; try discriminate; [|assumption]. specialize (A _ _ _ H buf0). rewrite H0 in A. destruct r; [discriminate..|now destruct A]. }
  assert (I : forall n t l b f b' f' r, items_written M n t l b f b' f' r -> r <> Crash).
  { intros n t l b f b' f' r. induction 1; [discriminate|assumption|]. eapply V. eassumption. }
  revert S. generalize (concluded e) as c, true as first. intros c first S. clear e.
  induction S as [b f|f fs v vs b first b1 first1 b2 c F S IH|f fs v vs b first b1 first1 r F K L]; [discriminate|inversion X; subst; now apply IH|].
  inversion X as [|? ? [Y N] X']; subst. assert (C : r <> Crash); [|destruct r; discriminate || now destruct C].
  inversion F; subst; try discriminate; try congruence; try (now destruct N); [eapply I; eassumption|eapply V; eassumption].
Qed.
Print Assumptions C140_no_panic.

Example C140_case :
  Forall2 (fun f v => typed (gf_type f) v) sample [VStr (B "cba"); VBool true; VStr (B "a b"); VInt 0; VSlice (Some [VStr (B "x"); VStr []]); VSlice None; VPtr (Some (VInt 5))] /\
  g_marshal sample_methods sample [VStr (B "cba"); VBool true; VStr (B "a b"); VInt 0; VSlice (Some [VStr (B "x"); VStr []]); VSlice None; VPtr (Some (VInt 5))] (B "IABC ") =
    (B "IABC abc NIa\sb PO0 TAx TA AG5", EndDone) /\
  struct_written sample_methods sample [VStr (B "cba"); VBool true; VStr (B "a b"); VInt 0; VSlice (Some [VStr (B "x"); VStr []]); VSlice None; VPtr (Some (VInt 5))] (B "IABC ") true
    (B "IABC abc NIa\sb PO0 TAx TA AG5") Fine /\
  appending_methods sample_methods.
Proof.
  assert (T : Forall2 (fun f v => typed (gf_type f) v) sample [VStr (B "cba"); VBool true; VStr (B "a b"); VInt 0; VSlice (Some [VStr (B "x"); VStr []]); VSlice None; VPtr (Some (VInt 5))]).
  { repeat constructor; cbn; unfold fits; cbn; lia. }
  split; [exact T|]. split; [vm_compute; reflexivity|]. split; [apply (C140_encoded _ _ _ _ _ _ T); exists EndDone; split; vm_compute; reflexivity|].
  split.
  - intros n f v. do 8 (destruct n as [|n]; [cbn; try discriminate|]); [|discriminate]. intros [= <-]. destruct v; eexists; eexists; intros; try reflexivity; now rewrite app_nil_r.
  - intros n f p. do 8 (destruct n as [|n]; [discriminate|]). discriminate.
Qed.

(** ** C141: structures that arrive unchanged *)

(** What Marshal writes is read by Unmarshal as the same structure: fields without name stand first, no name begins with another,
    and each value can be carried. *)
Theorem C141_roundtrip M pf fs vs ws : orderly fs -> all_arrive M pf fs vs ws ->
  g_marshal M fs vs [] = (join (B " ") ws, EndDone) /\
  g_unmarshal M pf fs (join (B " ") ws) (map (fun f => blank (gf_type f)) fs) = (vs, EndDone).
Proof. exact (arrive_roundtrip M pf fs vs ws). Qed.
Print Assumptions C141_roundtrip.

(** The values that can be carried: every text, every number with a sign of 16 bits or more, the flag true, nil pointers, and
    pointers to what can be carried unless it is written as nothing. *)
Theorem C141_string M pf n s x : mute M (GString n) -> plain M (GString n) -> (portable M pf (GString n) (VStr s) x <-> escaped s x).
Proof. exact (portable_string M pf n s x). Qed.
Print Assumptions C141_string.
Theorem C141_number M pf n w z x : mute M (GInt n w) -> plain M (GInt n w) -> w <> Bits8 -> fits w z ->
  (portable M pf (GInt n w) (VInt z) x <-> x = number_text z).
Proof. exact (portable_int M pf n w z x). Qed.
Print Assumptions C141_number.
Theorem C141_flag M pf n b x : mute M (GBool n) -> plain M (GBool n) -> (portable M pf (GBool n) (VBool b) x <-> b = true /\ x = B "1").
Proof. exact (portable_flag M pf n b x). Qed.
Print Assumptions C141_flag.
(** Numbers without a sign are written, but can never be read. *)
Theorem C141_unsigned M pf n w k x : mute M (GUint n w) -> plain M (GUint n w) -> ~ portable M pf (GUint n w) (VUint k) x.
Proof. exact (portable_uint M pf n w k x). Qed.
Print Assumptions C141_unsigned.
Theorem C141_nil M pf t x : mute M (GPtr t) -> (portable M pf (GPtr t) (VPtr None) x <-> x = []).
Proof. exact (portable_nil M pf t x). Qed.
Print Assumptions C141_nil.
Theorem C141_pointer M pf t v x : mute M (GPtr t) -> (portable M pf (GPtr t) (VPtr (Some v)) x <-> x <> [] /\ portable M pf t v x).
Proof. exact (portable_pointer M pf t v x). Qed.
Print Assumptions C141_pointer.
(** Types with both methods: if the text has no space and the method reads what the other writes *)
Theorem C141_own M pf t n f d v x : type_number t = Some n -> gm_value (M n) = Some f -> gm_decode (M n) = Some d -> typed t v ->
  ~ In " "%byte x -> (forall buf, f v buf = (buf ++ x, MDone)) -> d (blank t) x = (v, MDone) -> portable M pf t v x.
Proof. exact (portable_own M pf t n f d v x). Qed.
Print Assumptions C141_own.

(** Every structure that Marshal writes without error arrives unchanged.  This is false even for single fields: a flag that is
    required arrives as true, *)
Definition arrives_always (fs : list gfield) : Prop := forall pf vs b, Forall2 (fun f v => typed (gf_type f) v) fs vs ->
  g_marshal (fun _ => no_methods) fs vs [] = (b, EndDone) ->
  g_unmarshal (fun _ => no_methods) pf fs b (map (fun f => blank (gf_type f)) fs) = (vs, EndDone).
Theorem C141_flag_refuted : ~ arrives_always [mkField (B "Flag") true (B "FL,req") (GBool 0)].
Proof. intros H. refine (_ (H (fun _ _ => FErr) [VBool false] _ _ eq_refl)); [discriminate|repeat constructor]. Qed.
Print Assumptions C141_flag_refuted.
(** a number without a sign is not read at all, *)
Theorem C141_unsigned_refuted : ~ arrives_always [mkField (B "Size") true (B "SS") (GUint 0 Bits64)].
Proof. intros H. refine (_ (H (fun _ _ => FErr) [VUint 5] _ _ eq_refl)); [discriminate|repeat constructor]. Qed.
Print Assumptions C141_unsigned_refuted.
(** a pointer to an empty text arrives as nil, *)
Theorem C141_pointer_refuted : ~ arrives_always [mkField (B "Note") true (B "NO") (GPtr (GString 0))].
Proof. intros H. refine (_ (H (fun _ _ => FErr) [VPtr (Some (VStr []))] _ _ eq_refl)); [discriminate|repeat constructor]. Qed.
Print Assumptions C141_pointer_refuted.
(** a list without elements that is not nil arrives as nil, *)
Theorem C141_list_refuted : ~ arrives_always [mkField (B "Tags") true (B "TA") (GSlice 0 (GString 0))].
Proof. intros H. refine (_ (H (fun _ _ => FErr) [VSlice (Some [])] _ _ eq_refl)); [discriminate|repeat constructor]. Qed.
Print Assumptions C141_list_refuted.
(** a tag with an option but no name is written and not read, *)
Theorem C141_tag_refuted : ~ arrives_always [mkField (B "Note") true (B ",req") (GString 0)].
Proof. intros H. refine (_ (H (fun _ _ => FErr) [VStr (B "x")] _ _ eq_refl)); [discriminate|repeat constructor]. Qed.
Print Assumptions C141_tag_refuted.
(** and of two names one of which begins with the other, the shorter gets the words of both. *)
Theorem C141_names_refuted : ~ arrives_always [mkField (B "Nick") true (B "N") (GString 0); mkField (B "Name") true (B "NI") (GString 0)].
Proof.
  intros H. refine (_ (H (fun _ _ => FErr) [VStr []; VStr (B "x")] _ _ eq_refl)); [discriminate|repeat constructor].
Qed.
Print Assumptions C141_names_refuted.

(** In a packet: a structure that arrives unchanged is carried by every packet whose parts and payload are in order (C62).  The
    line decodes to the same header with the payload, and the payload to the same structure. *)
Theorem C141_packet M pf sp p name fs vs ws : appending_methods M -> orderly fs -> all_arrive M pf fs vs ws ->
  raw p name (join (B " ") ws) -> length name = 3 -> ~ In x00 name -> ~ In x00 (join (B " ") ws) -> parts_ok p -> payload_ok p ->
  exists l, (forall buf, marshal_packet_with p (g_message M name (SStruct fs vs)) buf = (buf ++ l, MDone)) /\ decode_packet_raw sp l = Ok p /\
    g_unmarshal_any M pf (join (B " ") ws) (TPointer (Some (fs, map (fun f => blank (gf_type f)) fs))) = (Some vs, EndDone).
Proof.
  intros A O W R L N D P Y. destruct (C141_roundtrip M pf fs vs ws O W) as [E U].
  destruct (C140_message M name fs vs A) as (d & r & G & H). destruct (H _ _ _ E) as (J & F & _). cbn [app] in J. subst d.
  assert (r = MDone) as -> by now apply F.
  exists (marshal_packet p). split; [|split; [now apply (C62_roundtrip sp p name (join (B " ") ws))|]].
  - intros buf. apply (C134_line p _ (join (B " ") ws) (marshal_packet p) buf G).
    assert (T : packet_text p (marshal_packet p)) by (apply PropsAdcWrite.C110_packet; reflexivity).
    apply AdcReuseFacts.line_with_text in T. unfold raw in R. rewrite R in T. exact T.
  - cbn [g_unmarshal_any]. now rewrite U.
Qed.
Print Assumptions C141_packet.

Example C141_case : let vs := [VStr (B "cba"); VBool false; VStr (B "a b"); VInt 0; VSlice (Some [VStr (B "x"); VStr []]); VSlice None; VPtr (Some (VInt 5))] in
  let ws := [B "abc"; B "NIa\sb"; B "PO0"; B "TAx"; B "TA"; B "AG5"] in
  orderly sample /\ all_arrive sample_methods (fun _ _ => FErr) sample vs ws /\
  raw (PBroadcast (B "AAAB") (ARaw (B "ABC") (join (B " ") ws))) (B "ABC") (join (B " ") ws) /\
  parts_ok (PBroadcast (B "AAAB") (ARaw (B "ABC") (join (B " ") ws))) /\ payload_ok (PBroadcast (B "AAAB") (ARaw (B "ABC") (join (B " ") ws))) /\
  marshal_packet_with (PBroadcast (B "AAAB") (ARaw (B "ABC") (join (B " ") ws))) (g_message sample_methods (B "ABC") (SStruct sample vs)) [] =
    (B "BABC AAAB abc NIa\sb PO0 TAx TA AG5" ++ [x0a], MDone).
Proof.
  assert (TP : forall t n o, tag_parts t n o -> n = tag_name t) by (intros t n o H; now apply tag_parts_name in H).
  assert (P : forall n, ~ In ","%byte n -> tag_parts n n None) by (intros n; now constructor).
  assert (DI : forall f g, ~ (exists r, tag_name (gf_tag f) = tag_name (gf_tag g) ++ r) -> ~ (exists r, tag_name (gf_tag g) = tag_name (gf_tag f) ++ r) -> distinguished f g).
  { intros f g A C n o m p r T T' _ _. apply TP in T. apply TP in T'. subst. split; intros E; [apply A|apply C]; now exists r. }
  cbv zeta. split; [|split; [|split; [reflexivity|split; [|split; [|vm_compute; reflexivity]]]]].
  - exists (firstn 2 sample), (skipn 2 sample). split; [reflexivity|]. split; [|split].
    + constructor; [right; exists None; apply P; cbn; intuition discriminate|]. constructor; [left; now left|constructor].
    + unfold sample, skipn. repeat first [apply Forall_nil|apply Forall_cons; [intros o H; apply TP in H; discriminate|]].
    + unfold sample, skipn. repeat first [apply FOP_nil|apply FOP_cons]; repeat first [apply Forall_nil|apply Forall_cons; [apply DI; intros (r & E); discriminate|]].
  - assert (SG : forall pf s x, escaped s x -> portable sample_methods pf (GString 0) (VStr s) x).
    { intros pf s x H. apply C141_string; [| |assumption]; intros n [= <-]; reflexivity. }
    assert (NU : forall pf w z, w <> Bits8 -> fits w z -> portable sample_methods pf (GInt 0 w) (VInt z) (number_text z)).
    { intros pf w z H F. apply C141_number; try assumption; [| |reflexivity]; intros n [= <-]; reflexivity. }
    apply (aa_next _ _ (nth 0 sample (mkField [] true [] (GBool 0))) _ (B "#") None (VStr (B "cba")) _ [B "abc"] [B "NIa\sb"; B "PO0"; B "TAx"; B "TA"; B "AG5"]).
    { apply P. cbn. intuition discriminate. }
    { apply ar_word with (o := None); [apply P; cbn; intuition discriminate|reflexivity|].
      eapply C141_own with (n := 7); try reflexivity. cbn. intuition discriminate. }
    apply (aa_next _ _ (nth 1 sample (mkField [] true [] (GBool 0))) _ [] None (VBool false) _ [] [B "NIa\sb"; B "PO0"; B "TAx"; B "TA"; B "AG5"]).
    { apply P. intros []. } { apply ar_skip. now left. }
    apply (aa_next _ _ (nth 2 sample (mkField [] true [] (GBool 0))) _ (B "NI") None (VStr (B "a b")) _ [B "a\sb"] [B "PO0"; B "TAx"; B "TA"; B "AG5"]).
    { apply P. cbn. intuition discriminate. }
    { apply ar_value with (n := B "NI") (o := None); [apply P; cbn; intuition discriminate| |reflexivity| |right; discriminate|apply SG].
      - split; [intros [|]; discriminate|]. split; [discriminate|cbn; intuition discriminate].
      - right. split; [intros (n & z & E); discriminate|discriminate].
      - apply AdcWriteFacts.escaped_iff. reflexivity. }
    apply (aa_next _ _ (nth 3 sample (mkField [] true [] (GBool 0))) _ (B "PO") (Some (B "req")) (VInt 0) _ [B "0"] [B "TAx"; B "TA"; B "AG5"]).
    { apply (tp_comma (B "PO") (B "req")). cbn. intuition discriminate. }
    { apply ar_value with (n := B "PO") (o := Some (B "req")); [apply (tp_comma (B "PO") (B "req")); cbn; intuition discriminate| |reflexivity|left; now right|right; discriminate|].
      - split; [intros [|]; discriminate|]. split; [discriminate|cbn; intuition discriminate].
      - apply NU; [discriminate|unfold fits; cbn; lia]. }
    apply (aa_next _ _ (nth 4 sample (mkField [] true [] (GBool 0))) _ (B "TA") None (VSlice (Some [VStr (B "x"); VStr []])) _ [B "x"; []] [B "AG5"]).
    { apply P. cbn. intuition discriminate. }
    { apply ar_items with (n := B "TA") (o := None) (k := 0) (e := GString 0); try reflexivity; try discriminate.
      - apply P. cbn. intuition discriminate.
      - split; [intros [|]; discriminate|]. split; [discriminate|cbn; intuition discriminate].
      - intros n [= <-]. reflexivity.
      - intros n [= <-]. reflexivity.
      - constructor; [apply SG; apply AdcWriteFacts.escaped_iff; reflexivity|]. constructor; [apply SG; apply AdcWriteFacts.escaped_iff; reflexivity|constructor]. }
    apply (aa_next _ _ (nth 5 sample (mkField [] true [] (GBool 0))) _ (B "CO") None (VSlice None) _ [] [B "AG5"]).
    { apply P. cbn. intuition discriminate. }
    { apply ar_none with (n := B "CO") (o := None) (k := 0) (e := GInt 0 Bits32); try reflexivity.
      - apply P. cbn. intuition discriminate.
      - split; [intros [|]; discriminate|]. split; [discriminate|cbn; intuition discriminate].
      - intros n [= <-]. reflexivity. }
    apply (aa_next _ _ (nth 6 sample (mkField [] true [] (GBool 0))) _ (B "AG") None (VPtr (Some (VInt 5))) _ [B "5"] []).
    { apply P. cbn. intuition discriminate. }
    { apply ar_value with (n := B "AG") (o := None); [apply P; cbn; intuition discriminate| |reflexivity| |right; discriminate|].
      - split; [intros [|]; discriminate|]. split; [discriminate|cbn; intuition discriminate].
      - right. split; [intros (n & z & E); discriminate|discriminate].
      - apply C141_pointer; [intros n [= <-]; now split|]. split; [discriminate|]. apply NU; [discriminate|unfold fits; cbn; lia]. }
    constructor.
  - vm_compute. intuition discriminate.
  - exact Logic.I.
Qed.
