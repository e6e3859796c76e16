(** Property theorems C61, C65-C73, C80, C82 and C83: ADC escaping and messages.
    Specifications: SpecAdc.v, SpecAdcMessage.v.  Proofs: AdcTextFacts.v, AdcValueFacts.v, AdcMessageFacts.v,
    AdcCustomFacts.v, AdcDecodeFacts.v.

    [pf] is an arbitrary behaviour of strconv.ParseFloat. *)
From Coq Require Import Permutation.
From Verif Require Import Base BaseFacts Num SpecText Base32 Tiger SpecHash AdcText AdcValue AdcMessage AdcPacket SpecAdc SpecAdcMessage.
From Verif Require Import AdcTextFacts AdcValueFacts AdcMessageFacts AdcCustomFacts AdcDecodeFacts.

Definition no_float (s : bytes) : float_result := FErr.

(** ** C61: escaping *)

Theorem C61_roundtrip s : unescape (escape s) = s.
Proof. exact (unescape_escape s). Qed.
Print Assumptions C61_roundtrip.

(** The text is the escaped form and hides both separators. *)
Theorem C61_escape s : escaped s (escape s) /\ ~ In " "%byte (escape s) /\ ~ In x0a (escape s).
Proof. split; [apply escape_escaped|]. split; [apply escape_no_sp|apply escape_no_nl]. Qed.
Print Assumptions C61_escape.

(** What any text is read as *)
Theorem C61_unescape e s : unescape e = s <-> denotes_text e s.
Proof. split; [intros <-; apply unescape_denotes|intros H; symmetry; now apply denotes_unescape]. Qed.
Print Assumptions C61_unescape.

Example C61_instance : escape (B "a b\") ++ escape [x0a; "s"%byte] = B "a\sb\\\ns" /\
  unescape (B "a\sb\\\ns\x\") = B "a b\" ++ [x0a] ++ B "s\x\".
Proof. split; vm_compute; reflexivity. Qed.
Example C61_instance_spec : escaped (B "a \") (B "a\s\\").
Proof. change (B "a \") with ["a"; " "; "\"]%byte. change (B "a\s\\") with ["a"; "\"; "s"; "\"; "\"]%byte. repeat constructor; discriminate. Qed.

(** ** C65: structures round trip *)

Theorem C65_roundtrip pf t v : carries_all (fields_of t) v -> unmarshal pf (marshal (AStruct t v)) (new_struct t) = Ok (AStruct t v).
Proof. exact (message_roundtrip pf t v). Qed.
Print Assumptions C65_roundtrip.

(** The words are those of the specification, separated by spaces. *)
Theorem C65_text t v : carries_all (fields_of t) v -> exists l, all_words (fields_of t) v l /\ marshal (AStruct t v) = join (B " ") l.
Proof. exact (message_words t v). Qed.
Print Assumptions C65_text.

Definition C65_result : vals (fields_of TSch) :=
  (B "t 1", ([B "a b"; B "c"], ([], ([], (0, (7, (0, (0, (Some (repeat x41 24), (0, ([B "x"], tt)))))))))))%Z.
Example C65_instance : carries_all (fields_of TSch) C65_result /\
  marshal (AStruct TSch C65_result) = B "TOt\s1 ANa\sb ANc GE7 TRIFAUCQKBIFAUCQKBIFAUCQKBIFAUCQKBIFAUCQI RXx".
Proof. split; [repeat split; intros; discriminate|vm_compute; reflexivity]. Qed.
Definition C65_user : vals (fields_of TCmd) := ([B "a b"; B "c"], (B "say\", (1, (0, (0, (-3, tt))))))%Z.
Example C65_instance_path : carries_all (fields_of TCmd) C65_user /\ marshal (AStruct TCmd C65_user) = B "a\sb/c TTsay\\ CT1 SP-3".
Proof.
  split; [|vm_compute; reflexivity]. split; [|repeat split; intros; discriminate]. split; [discriminate|].
  repeat constructor; cbn; intuition discriminate.
Qed.

(** ** C66: crashes *)

Theorem C66_too_few_refuted pf s : ~ In " "%byte s ->
  unmarshal_message pf (B "CTM") s = Panic /\ unmarshal_message pf (B "RCM") s = Panic /\ unmarshal_message pf (B "GFI") s = Panic.
Proof.
  intros N. assert (W : separated s [s]) by (split; [discriminate|]; split; [now constructor|reflexivity]).
  split; [|split]; apply (crashing_message _ _ s [s] W); try (cbn; tauto); constructor; cbn; lia.
Qed.
Print Assumptions C66_too_few_refuted.

Theorem C66_overlong_refuted pf : unmarshal_message pf (B "PAS") (repeat x41 40) = Panic /\
  unmarshal_message pf (B "RES") (B "TR" ++ repeat x41 40) = Panic.
Proof. split; vm_compute; reflexivity. Qed.
Print Assumptions C66_overlong_refuted.

(** A crash has one of these causes, for every message type (also those not registered). *)
Theorem C66_crash_partial pf name s ws : separated s ws -> unmarshal_message pf name s = Panic -> crashing ws name.
Proof. exact (message_crashing pf name s ws). Qed.
Print Assumptions C66_crash_partial.

(** For these messages the causes are exact. *)
Theorem C66_crash_exact pf name s ws : separated s ws -> name = B "RCM" \/ name = B "GFI" \/ name = B "PAS" ->
  (unmarshal_message pf name s = Panic <-> crashing ws name).
Proof.
  intros W T. split; [now apply message_crashing|]. apply (crashing_message pf name s ws W). tauto.
Qed.
Print Assumptions C66_crash_exact.

Example C66_instance : separated (B "a b") [B "a"; B "b"] /\ unmarshal_message no_float (B "CTM") (B "a 1") = Panic /\
  unmarshal_message no_float (B "RCM") (B "a b") = Ok (AStruct TRcm (B "a", (B "b", tt))) /\
  unmarshal_message no_float (B "PAS") (B "a b") = Err err_corrupt.
Proof.
  split; [split; [discriminate|]; split; [repeat constructor; cbn; intuition discriminate|reflexivity]|]. repeat split; vm_compute; reflexivity.
Qed.

(** ** C67: booleans *)

Theorem C67_zero_refuted pf : exists v, unmarshal pf (B "hi ME0") (new_struct TChat) = Ok (AStruct TChat v) /\
  get_field KBool "Me" chat_fields v = Some true.
Proof. eexists. split; vm_compute; reflexivity. Qed.
Print Assumptions C67_zero_refuted.

(** What the flag of a chat message, the only boolean field, is decoded to: any character means true. *)
Theorem C67_decoded_partial pf s ws v : separated s ws -> unmarshal pf s (new_struct TChat) = Ok (AStruct TChat v) ->
  exists b, get_field KBool "Me" chat_fields v = Some b /\
  match values (B "ME") (tl ws) with
  | [] => b = false
  | [x] => x = [] /\ b = false \/ exists c, x = [c] /\ (b = true <-> c <> x00)
  | _ => False
  end.
Proof. exact (chat_me pf s ws v). Qed.
Print Assumptions C67_decoded_partial.

Example C67_instance : exists v, unmarshal no_float (B "hi ME1 TS5") (new_struct TChat) = Ok (AStruct TChat v) /\
  get_field KBool "Me" chat_fields v = Some true /\ values (B "ME") [B "ME1"; B "TS5"] = [B "1"].
Proof. eexists. split; [|split]; vm_compute; reflexivity. Qed.

(** The type BoolInt, unlike a plain bool, has exactly the two texts. *)
Theorem C67_boolint s : boolint_unmarshal s <> Panic /\
  forall b, boolint_unmarshal s = Ok b <-> s = boolint_marshal b /\ boolint_marshal b = (if b then B "1" else B "0").
Proof. exact (boolint_exact s). Qed.
Print Assumptions C67_boolint.

Example C67_boolint_case : boolint_unmarshal (B "0") = Ok false /\ boolint_unmarshal (boolint_marshal true) = Ok true /\
  boolint_unmarshal (B "2") = Err (EText "wrong bool value") /\ boolint_unmarshal [] = Err (EText "wrong bool value").
Proof. vm_compute. auto. Qed.

(** ** C68: integers *)

(** A fraction is accepted and ignored. *)
Theorem C68_fraction_refuted pf : pf (B "1.5") = FFrac -> unmarshal pf (B "LE1.5") (new_struct TSch) = Ok (new_struct TSch).
Proof. intros H. cbn -[B]. unfold unmarshal_struct. vm_compute in H. vm_compute. rewrite H. reflexivity. Qed.
Print Assumptions C68_fraction_refuted.

(** Every integer field with a tag, in every structure: the value after decoding over [old].  Decimal
    texts of 64 bit integers are exact. *)
Theorem C68_decoded pf t n tag rq s ws old v : In {| f_name := n; f_tag := tag; f_req := rq; f_kind := KInt |} (fields_of t) ->
  tag <> B "#" -> separated s ws -> unmarshal pf s (AStruct t old) = Ok (AStruct t v) ->
  exists o z, get_field KInt n (fields_of t) old = Some o /\ get_field KInt n (fields_of t) v = Some z /\
  match values tag (skipn (positionals (fields_of t)) ws) with
  | [] => z = o
  | [x] => number pf x o z
  | _ => False
  end.
Proof. exact (tagged_int pf t n tag rq s ws old v). Qed.
Print Assumptions C68_decoded.

(** Other texts are rejected unless ParseFloat accepts them. *)
Theorem C68_rejected_partial pf t n tag rq s ws x old m : In {| f_name := n; f_tag := tag; f_req := rq; f_kind := KInt |} (fields_of t) ->
  tag <> B "#" -> separated s ws -> In x (values tag (skipn (positionals (fields_of t)) ws)) ->
  x <> [] -> (forall z, signed_decimal x z -> ~ int64 z) -> pf x = FErr ->
  unmarshal pf s (AStruct t old) <> Ok m.
Proof.
  intros I T W X NE ND F H. assert (M : exists v, m = AStruct t v).
  { cbn [unmarshal] in H. apply bind_ok in H. destruct H as (v & _ & H). injection H as <-. eauto. }
  destruct M as [v ->]. destruct (tagged_int pf t n tag rq s ws old v I T W H) as (o & z & _ & _ & K).
  destruct (values tag _) as [|y [|y' l]]; [destruct X| |exact K]. destruct X as [->|[]].
  destruct K as [[K _]|[[K K']|(_ & _ & [K|[K _]])]]; [congruence|exact (ND z K K')|congruence|congruence].
Qed.
Print Assumptions C68_rejected_partial.

(** The port of a connect request, the only integer without tag *)
Theorem C68_port pf s p x r v : separated s (p :: x :: r) -> unmarshal pf s (new_struct TCtm) = Ok (AStruct TCtm v) ->
  exists z, get_field KInt "Port" ctm_fields v = Some z /\ number pf x 0 z.
Proof.
  intros W H. cbn [unmarshal new_struct] in H. apply bind_ok in H. destruct H as (v' & H & E).
  assert (v' = v). { injection E as E. apply (Eqdep_dec.inj_pair2_eq_dec stype) in E; [assumption|]. decide equality. }
  subst v'. unfold unmarshal_struct in H. rewrite (separated_split _ _ W) in H.
  change (unmarshal_fields pf ctm_fields (p :: x :: r) (zeros ctm_fields) = Ok v) in H.
  assert (U : unmarshal_fields pf ctm_fields (p :: x :: r) (zeros ctm_fields) =
    (do z <- unmarshal_value pf KInt x 0%Z; do l <- unmarshal_fields pf [fld "Token" "#" KStr] r ([], tt); Ok (unescape p, (z, l)))).
  { cbn -[unmarshal_value unmarshal_int]. change (unmarshal_value pf KStr p []) with (Ok (unescape p)). cbn [bind].
    destruct (unmarshal_value pf KInt x 0%Z); cbn [bind]; [|reflexivity|reflexivity]. destruct r; reflexivity. }
  rewrite U in H. apply bind_ok in H. destruct H as (z & Z & H). apply bind_ok in H. destruct H as (l & _ & H). injection H as <-.
  exists z. split; [reflexivity|]. now apply number_spec.
Qed.
Print Assumptions C68_port.

Example C68_instance : In {| f_name := "Le"; f_tag := B "LE"; f_req := false; f_kind := KInt |} (fields_of TSch) /\
  (exists v, unmarshal no_float (B "GE1 LE-12") (new_struct TSch) = Ok (AStruct TSch v) /\ get_field KInt "Le" sch_fields v = Some (-12)%Z) /\
  unmarshal no_float (B "LE9223372036854775808") (new_struct TSch) = Err (EText "range") /\
  (exists v, unmarshal no_float (B "ADC/1.0 412 t") (new_struct TCtm) = Ok (AStruct TCtm v) /\ get_field KInt "Port" ctm_fields v = Some 412%Z).
Proof.
  split; [cbn; auto 8|]. split; [eexists; split; vm_compute; reflexivity|]. split; [vm_compute; reflexivity|]. eexists; split; vm_compute; reflexivity.
Qed.

(** ** C69: generic fields *)

Theorem C69_escape_refuted : fields_unmarshal (fields_marshal [(B "DE", B "a b")]) = Ok [(B "DE", B "a\sb")].
Proof. vm_compute. reflexivity. Qed.
Print Assumptions C69_escape_refuted.

(** The values come back in escaped form, tags and order are kept. *)
Theorem C69_decoded l : Forall (fun f => length (fst f) = 2 /\ ~ In " "%byte (fst f)) l ->
  exists l', fields_unmarshal (fields_marshal l) = Ok l' /\ Forall2 (fun f g => fst g = fst f /\ escaped (snd f) (snd g)) l l'.
Proof.
  intros F. exists (map (fun f => (fst f, escape (snd f))) l). split; [now apply fields_decoded|]. clear F.
  induction l as [|f l IH]; constructor; [split; [reflexivity|apply escape_escaped]|exact IH].
Qed.
Print Assumptions C69_decoded.

(** So the round trip works exactly when no value needs an escape. *)
Theorem C69_roundtrip_partial l : Forall (fun f => length (fst f) = 2 /\ ~ In " "%byte (fst f)) l ->
  (fields_unmarshal (fields_marshal l) = Ok l <->
   Forall (fun f => ~ In "\"%byte (snd f) /\ ~ In " "%byte (snd f) /\ ~ In x0a (snd f)) l).
Proof.
  intros F. rewrite (fields_decoded l F). clear F. split.
  - intros H. injection H as H. induction l as [|[t v] l IH]; [constructor|]. cbn in H. injection H as H H'. constructor; [now apply escape_same|now apply IH].
  - intros H. f_equal. induction H as [|[t v] l A _ IH]; [reflexivity|]. cbn [map fst snd] in *. rewrite IH. apply escape_same in A. now rewrite A.
Qed.
Print Assumptions C69_roundtrip_partial.

Example C69_instance : fields_marshal [(B "NI", B "bob"); (B "SL", B "")] = B "NIbob SL" /\
  fields_unmarshal (B "NIbob SL") = Ok [(B "NI", B "bob"); (B "SL", B "")] /\ fields_unmarshal (B "NI S") = Err (EText "invalid field").
Proof. repeat split; vm_compute; reflexivity. Qed.

(** ** C70: status *)

Theorem C70_roundtrip st : (0 <= st_sev st)%Z -> (0 <= st_code st < 100)%Z -> int64 (100 * st_sev st + st_code st) ->
  status_unmarshal (status_marshal st) = Ok st.
Proof. exact (status_roundtrip st). Qed.
Print Assumptions C70_roundtrip.

(** The text is the number [severity * 100 + code] and the escaped message. *)
Theorem C70_text st : (0 <= st_sev st)%Z -> (0 <= st_code st < 100)%Z -> int64 (100 * st_sev st + st_code st) ->
  exists h e, status_marshal st = h ++ " "%byte :: e /\ signed_decimal h (100 * st_sev st + st_code st) /\ escaped (st_msg st) e.
Proof.
  intros S C R. exists (format_int (st_sev st) ++ fmt_02d (st_code st)), (escape (st_msg st)). split; [apply status_text|].
  split; [now apply status_code|apply escape_escaped].
Qed.
Print Assumptions C70_text.

(** What any text is decoded to *)
Theorem C70_decoded s st : status_unmarshal s = Ok st <->
  exists head tail n, s = head ++ tail /\ ~ In " "%byte head /\ signed_decimal head n /\ int64 n /\
    (tail = [] /\ st_msg st = [] \/ exists e, tail = " "%byte :: e /\ denotes_text e (st_msg st)) /\
    st_sev st = Z.quot n 100 /\ st_code st = Z.rem n 100.
Proof. exact (status_decoded s st). Qed.
Print Assumptions C70_decoded.

(** Severity 0 is success, 1 recoverable; code 51 of a failure is a missing file. *)
Theorem C70_err st : (status_err st = None <-> st_sev st = 0%Z) /\
  (status_err st = Some NotExist <-> st_sev st <> 0%Z /\ st_code st = 51%Z) /\
  (forall x, status_err st = Some (StatusError x) <-> x = st /\ st_sev st <> 0%Z /\ st_code st <> 51%Z) /\
  (status_ok st = true <-> st_sev st = 0%Z) /\ (status_recoverable st = true <-> st_sev st = 0%Z \/ st_sev st = 1%Z).
Proof.
  unfold status_err, status_recoverable, status_ok. destruct (Z.eqb_spec (st_sev st) 0) as [A|A].
  - cbn. intuition (try discriminate; try congruence).
  - cbn [orb]. destruct (Z.eqb_spec (st_code st) 51) as [C|C]; destruct (Z.eqb_spec (st_sev st) 1) as [D|D]; intuition (try discriminate; try congruence).
Qed.
Print Assumptions C70_err.

(** Negative codes are not decoded back. *)
Theorem C70_negative_refuted : exists st, (0 <= st_sev st)%Z /\ int64 (st_code st) /\ forall x, status_unmarshal (status_marshal st) <> Ok x.
Proof.
  exists {| st_sev := 1; st_code := -5; st_msg := [] |}. split; [cbn; lia|]. split; [split; [discriminate|reflexivity]|].
  intros x. vm_compute. discriminate.
Qed.
Print Assumptions C70_negative_refuted.

Example C70_instance : status_marshal {| st_sev := 1; st_code := 5; st_msg := B "a b" |} = B "105 a\sb" /\
  status_unmarshal (B "251 no\sfile") = Ok {| st_sev := 2; st_code := 51; st_msg := B "no file" |} /\
  status_marshal {| st_sev := 0; st_code := 0; st_msg := [] |} = B "000 ".
Proof. repeat split; vm_compute; reflexivity. Qed.

(** ** C71: file requests *)

Theorem C71_roundtrip pf g : int64 (g_start g) -> int64 (g_bytes g) ->
  unmarshal pf (marshal (AGet g)) (AGet new_get) = Ok (AGet g) /\ unmarshal pf (marshal (ASnd g)) (ASnd new_get) = Ok (ASnd g).
Proof.
  intros S N. cbn [unmarshal marshal]. rewrite (get_roundtrip new_get g S N). cbn [bind new_get g_comp]. rewrite orb_false_r.
  destruct g; split; reflexivity.
Qed.
Print Assumptions C71_roundtrip.

(** Into a request that is reused, the compression flag sticks. *)
Theorem C71_reuse_refuted pf : exists g old, int64 (g_start g) /\ int64 (g_bytes g) /\
  exists g', unmarshal pf (marshal (AGet g)) (AGet old) = Ok (AGet g') /\ g' <> g.
Proof.
  exists {| g_type := B "file"; g_path := B "x"; g_start := 0; g_bytes := 1; g_comp := false |},
    {| g_type := []; g_path := []; g_start := 0; g_bytes := 0; g_comp := true |}.
  split; [split; [discriminate|reflexivity]|]. split; [split; [discriminate|reflexivity]|].
  eexists. split; [vm_compute; reflexivity|]. discriminate.
Qed.
Print Assumptions C71_reuse_refuted.

Theorem C71_reuse_partial old g : int64 (g_start g) -> int64 (g_bytes g) ->
  get_unmarshal old (get_marshal g) =
  Ok {| g_type := g_type g; g_path := g_path g; g_start := g_start g; g_bytes := g_bytes g; g_comp := (g_comp g || g_comp old)%bool |}.
Proof. exact (get_roundtrip old g). Qed.
Print Assumptions C71_reuse_partial.

Example C71_instance : get_marshal {| g_type := B "file"; g_path := B "a b"; g_start := 5; g_bytes := -1; g_comp := true |} = B "file a\sb 5 -1 ZL1" /\
  get_unmarshal new_get (B "file TTH/x 0 7 ZL2") = Err (EText "ADCGET: invalid field 5").
Proof. split; vm_compute; reflexivity. Qed.

(** ** C72: feature maps *)

(** Whatever the order [it] of the iteration over the map [m] *)
Theorem C72_roundtrip pf m it : distinct m -> Permutation it m -> Forall (fun e => plain_feature (fst e)) m ->
  exists m', unmarshal pf (marshal (ASup it)) (ASup []) = Ok (ASup m') /\ distinct m' /\ forall k r, entry m' k r <-> entry m k r.
Proof.
  intros D P F. assert (D' : distinct it) by (unfold distinct; now rewrite (Permutation_map fst P)).
  assert (F' : Forall (fun e => plain_feature (fst e)) it) by (now rewrite P).
  destruct (modfeatures_roundtrip pf it D' F') as (m' & E & Dm & G). exists m'. cbn [unmarshal marshal]. rewrite E. split; [reflexivity|].
  split; [exact Dm|]. intros k r. rewrite (entry_get k m' r Dm), (entry_get k m r D), G. now rewrite (get_perm k it m D' P).
Qed.
Print Assumptions C72_roundtrip.

(** SetFrom: a new map in which the entries of the second take precedence; no map that existed is changed. *)
Theorem C72_set_from it it' h f fp h' r : distinct it -> distinct it' -> Permutation it (contents h f) -> Permutation it' (contents h fp) ->
  set_from it it' h f fp = (h', r) ->
  (forall g, valid h g -> contents h' g = contents h g) /\ distinct (contents h' r) /\
  forall k a b, entry (contents h f) k a -> entry (contents h fp) k b -> entry (contents h' r) k (over b a).
Proof.
  intros D D' P P' H. destruct (set_from_spec it it' h f fp h' r D D' P P' H) as (A & _ & C & G). split; [exact A|]. split; [exact C|].
  intros k a b Ea Eb. assert (Df : distinct (contents h f)) by (unfold distinct; now rewrite <- (Permutation_map fst P)).
  assert (Dp : distinct (contents h fp)) by (unfold distinct; now rewrite <- (Permutation_map fst P')).
  apply entry_get in Ea; [|assumption]. apply entry_get in Eb; [|assumption]. apply entry_get; [assumption|]. rewrite G. now rewrite Ea, Eb.
Qed.
Print Assumptions C72_set_from.

(** Intersect: exactly the features enabled in both, in a new map *)
Theorem C72_intersect it h f fp h' r : distinct (contents h f) -> distinct (contents h fp) -> Permutation it (contents h f) ->
  intersect it h f fp = (h', r) ->
  (forall g, valid h g -> contents h' g = contents h g) /\ distinct (contents h' r) /\
  forall k v, In (k, v) (contents h' r) <-> v = true /\ In (k, true) (contents h f) /\ In (k, true) (contents h fp).
Proof.
  intros D D' P H. assert (Di : distinct it) by (unfold distinct; now rewrite (Permutation_map fst P)).
  destruct (intersect_spec it h f fp h' r Di P H) as (A & _ & C & G). split; [exact A|]. split; [exact C|].
  intros k v. change (In (k, v) (contents h' r)) with (entry (contents h' r) k (Some v)). rewrite (entry_get _ _ _ C), G. split.
  - destruct (fm_get k (contents h f)) as [[|]|] eqn:E1; try discriminate. destruct (fm_get k (contents h fp)) as [[|]|] eqn:E2; try discriminate.
    intros [= <-]. split; [reflexivity|]. split; now apply fm_get_in.
  - intros (-> & I & J). apply in_fm_get in I; [|assumption]. apply in_fm_get in J; [|assumption]. now rewrite I, J.
Qed.
Print Assumptions C72_intersect.

(** It is commutative. *)
Theorem C72_commutative it it' h f fp h1 r1 h2 r2 : distinct (contents h f) -> distinct (contents h fp) ->
  Permutation it (contents h f) -> Permutation it' (contents h fp) ->
  intersect it h f fp = (h1, r1) -> intersect it' h fp f = (h2, r2) ->
  Permutation (contents h1 r1) (contents h2 r2).
Proof.
  intros D D' P P' H1 H2. destruct (C72_intersect it h f fp h1 r1 D D' P H1) as (_ & N1 & G1).
  destruct (C72_intersect it' h fp f h2 r2 D' D P' H2) as (_ & N2 & G2).
  apply NoDup_Permutation; [exact (NoDup_map_inv _ _ N1)|exact (NoDup_map_inv _ _ N2)|].
  intros [k v]. rewrite G1, G2. tauto.
Qed.
Print Assumptions C72_commutative.

Definition C72_heap : fmaps := [[(B "BASE", true); (B "TIGR", true); (B "UCMD", false)]; [(B "TIGR", true); (B "UCMD", true); (B "BASE", false)]].
Example C72_instance :
  marshal (ASup (rev (nth 0 C72_heap []))) = B "RMUCMD ADTIGR ADBASE" /\
  intersect (rev (nth 0 C72_heap [])) C72_heap (Some 0) (Some 1) = (C72_heap ++ [[(B "TIGR", true)]], Some 2) /\
  set_from (nth 0 C72_heap []) (nth 1 C72_heap []) C72_heap (Some 0) (Some 1) =
    (C72_heap ++ [[(B "BASE", false); (B "TIGR", true); (B "UCMD", true)]], Some 2).
Proof. repeat split; vm_compute; reflexivity. Qed.
Example C72_instance_distinct : distinct (nth 0 C72_heap []) /\ Forall (fun e => plain_feature (fst e)) (nth 0 C72_heap []).
Proof.
  split; [|repeat constructor; cbn; intuition discriminate]. unfold distinct. cbn [nth C72_heap map fst].
  repeat constructor; cbn; intuition discriminate.
Qed.

(** ** C73: IsSet *)

(** A removed feature counts as set; and a removal is undone by an addition before it. *)
Theorem C73_removed_refuted pf : exists m, modfeatures_unmarshal pf (B "ADBASE RMTIGR") [] = Ok m /\ is_set [m] (Some 0) (B "TIGR") = true.
Proof. eexists. split; vm_compute; reflexivity. Qed.
Print Assumptions C73_removed_refuted.
Theorem C73_order_refuted pf : modfeatures_unmarshal pf (B "ADTIGR RMTIGR") [] = Ok [(B "TIGR", true)].
Proof. vm_compute. reflexivity. Qed.
Print Assumptions C73_order_refuted.

(** IsSet tells whether the map has an entry, *)
Theorem C73_is_set_partial h f s : is_set h f s = true <-> exists v, In (s, v) (contents h f).
Proof.
  destruct f as [a|]; cbn [is_set contents]; [|split; [discriminate|intros [v []]]]. destruct (fm_get s (nth a h [])) as [v|] eqn:E.
  - split; [|reflexivity]. intros _. exists v. now apply fm_get_in.
  - rewrite fm_get_none in E. split; [discriminate|]. intros [v I]. now apply E in I.
Qed.
Print Assumptions C73_is_set_partial.

(** and the entries after a message are: enabled if added anywhere in it, else disabled if removed
    anywhere in it, else as before. *)
Theorem C73_entries_partial pf s ws m : separated s ws -> distinct m ->
  let add := map unescape (values (B "AD") ws) in let rm := map unescape (values (B "RM") ws) in
  Forall (fun f => length f = 4) (add ++ rm) ->
  exists m', modfeatures_unmarshal pf s m = Ok m' /\ distinct m' /\
    forall k, (In k add -> In (k, true) m') /\ (~ In k add -> In k rm -> In (k, false) m') /\
      (~ In k add -> ~ In k rm -> forall r, entry m' k r <-> entry m k r).
Proof.
  intros W D add rm F. destruct (modfeatures_entries pf s ws m W F) as (m' & E & Dm & G). fold add rm in G. exists m'. split; [exact E|].
  specialize (Dm D). split; [exact Dm|]. intros k. specialize (G k).
  assert (X : forall l, existsb (bytes_eqb k) l = true <-> In k l).
  { intros l. rewrite existsb_exists. split; [intros (x & I & Q); apply bytes_eqb_true in Q; now subst|]. intros I. exists k. split; [exact I|apply bytes_eqb_refl]. }
  split; [|split].
  - intros A. apply X in A. rewrite A in G. now apply fm_get_in.
  - intros A R. apply X in R. destruct (existsb (bytes_eqb k) add) eqn:Q; [apply X in Q; tauto|]. rewrite R in G. now apply fm_get_in.
  - intros A R r. destruct (existsb (bytes_eqb k) add) eqn:Q; [apply X in Q; tauto|]. destruct (existsb (bytes_eqb k) rm) eqn:Q'; [apply X in Q'; tauto|].
    rewrite !entry_get by assumption. now rewrite G.
Qed.
Print Assumptions C73_entries_partial.

Example C73_instance : modfeatures_unmarshal no_float (B "ADTIGR RMUCM0 ADBASE") [(B "UCM0", true); (B "ZLIF", true)] =
  Ok [(B "UCM0", false); (B "ZLIF", true); (B "TIGR", true); (B "BASE", true)].
Proof. vm_compute. reflexivity. Qed.

(** ** C80: Normalize *)

Theorem C80_normalize u : let app := get_str "Application" inf_fields in let ver := get_str "Version" inf_fields in
  same_except ["Application"; "Version"]%string inf_fields u (normalize u) /\
  (app u <> [] \/ ~ In " "%byte (ver u) -> normalize u = u) /\
  (forall a v, app u = [] -> ver u = a ++ " "%byte :: v -> ~ In " "%byte v -> app (normalize u) = a /\ ver (normalize u) = v).
Proof. exact (normalize_spec u). Qed.
Print Assumptions C80_normalize.

Theorem C80_idempotent u : normalize (normalize u) = normalize u.
Proof. exact (normalize_idempotent u). Qed.
Print Assumptions C80_idempotent.

Example C80_instance : let u := set_str "Version" (B "My App 1.0") inf_fields (zeros inf_fields) in
  get_str "Application" inf_fields (normalize u) = B "My App" /\ get_str "Version" inf_fields (normalize u) = B "1.0".
Proof. split; vm_compute; reflexivity. Qed.

(** ** C82: login values *)

Theorem C82_salt pf salt : unmarshal pf (marshal (AGpa salt)) (AGpa []) = Ok (AGpa salt).
Proof. cbn [unmarshal marshal]. now rewrite gpa_roundtrip. Qed.
Print Assumptions C82_salt.

Theorem C82_sid pf sid old : length sid = 4 -> unmarshal pf (marshal (ASid sid)) (ASid old) = Ok (ASid sid).
Proof. intros L. cbn [unmarshal marshal]. unfold sid_unmarshal. now rewrite L. Qed.
Print Assumptions C82_sid.

Theorem C82_sid_rejected pf s old m : unmarshal pf s (ASid old) = Ok m -> m = ASid s /\ length s = 4.
Proof.
  cbn [unmarshal]. unfold sid_unmarshal. destruct (length s =? 4)%nat eqn:E; cbn [bind]; [|discriminate].
  intros [= <-]. split; [reflexivity|]. now apply Nat.eqb_eq.
Qed.
Print Assumptions C82_sid_rejected.

(** A text with characters that base32 skips yields a longer salt. *)
Theorem C82_skipped_refuted : gpa_unmarshal (B "AEBA" ++ [x0d; x0d]) = Ok [x01; x02; x00] /\ gpa_unmarshal (B "AEBA") = Ok [x01; x02].
Proof. split; vm_compute; reflexivity. Qed.
Print Assumptions C82_skipped_refuted.

Example C82_instance : gpa_marshal [x01; x02] = B "AEBA".
Proof. vm_compute. reflexivity. Qed.

(** ** C83: announced features *)

(** AddFeatures is understood as a feature list that enables exactly these. *)
Theorem C83_add_features pf l : NoDup l -> Forall plain_feature l ->
  exists m, modfeatures_unmarshal pf (addfeatures_marshal l) [] = Ok m /\ distinct m /\
    forall k v, In (k, v) m <-> v = true /\ In k l.
Proof.
  intros N F. set (it := map (fun f => (f, true)) l).
  assert (E : addfeatures_marshal l = modfeatures_marshal it).
  { unfold addfeatures_marshal, modfeatures_marshal, it. f_equal. rewrite map_map. reflexivity. }
  assert (D : distinct it) by (unfold distinct, it; rewrite map_map; cbn; now rewrite map_id).
  assert (F' : Forall (fun e => plain_feature (fst e)) it) by (unfold it; apply Forall_map; exact F).
  destruct (modfeatures_roundtrip pf it D F') as (m & M & Dm & G). exists m. rewrite E. split; [exact M|]. split; [exact Dm|].
  intros k v. change (In (k, v) m) with (entry m k (Some v)). rewrite (entry_get k m _ Dm), G. rewrite <- (entry_get k it (Some v) D). cbn. unfold it.
  rewrite in_map_iff. split; [intros (x & X & I); injection X as -> <-; auto|]. intros [-> I]. eauto.
Qed.
Print Assumptions C83_add_features.

(** Join lists the enabled features of the map, for every order of iteration. *)
Theorem C83_join m it : distinct m -> Permutation it m ->
  exists l, features_join it = join (B ",") l /\ NoDup l /\ forall k, In k l <-> In (k, true) m.
Proof.
  intros D P. exists (map fst (filter snd it)). split; [reflexivity|]. split.
  - assert (Di : NoDup (map fst it)) by (rewrite (Permutation_map fst P); exact D). clear - Di.
    induction it as [|[k b] it IH]; [constructor|]. cbn in *. apply NoDup_cons_iff in Di. destruct Di as [N Di]. destruct b; cbn; [|now apply IH].
    constructor; [|now apply IH]. intros I. apply N. apply in_map_iff in I. destruct I as (x & E & I). apply filter_In in I. apply in_map_iff. exists x. tauto.
  - intros k. rewrite in_map_iff. split.
    + intros ([a b] & <- & I). apply filter_In in I. destruct I as [I J]. cbn in J. subst b. apply (Permutation_in _ P I).
    + intros I. exists (k, true). split; [reflexivity|]. apply filter_In. split; [|reflexivity]. apply (Permutation_in _ (Permutation_sym P) I).
Qed.
Print Assumptions C83_join.

Theorem C83_has l s : ext_has l s = true <-> In s l.
Proof.
  unfold ext_has. rewrite existsb_exists. split; [intros (x & I & E); apply bytes_eqb_true in E; now subst|]. intros I. exists s. split; [exact I|apply bytes_eqb_refl].
Qed.
Print Assumptions C83_has.

Example C83_instance : addfeatures_marshal [B "BASE"; B "TIGR"] = B "ADBASE ADTIGR" /\
  features_join [(B "TIGR", true); (B "UCMD", false); (B "BASE", true)] = B "TIGR,BASE".
Proof. split; vm_compute; reflexivity. Qed.
