(** When decoding ADC messages crashes; booleans. *)
From Verif Require Import Base BaseFacts Num NumFacts NumSpec SpecText Base32 Base32Facts Tiger SpecHash TigerFacts.
From Verif Require Import AdcText SpecAdc AdcTextFacts AdcValue AdcValueFacts AdcMessage AdcPacket SpecAdcMessage AdcMessageFacts.

Section Decode.

Variable pf : bytes -> float_result.

(** The structures that may crash *)
Definition crash (t : stype) (ws : list bytes) : Prop :=
  match t with
  | TRcm | TGfi => length ws < 2
  | TCtm => length ws < 3
  | TPas => exists w r, ws = w :: r /\ overlong w
  | TSch | TRes => exists w, In (B "TR" ++ w) ws /\ overlong w
  | _ => False
  end.

Lemma struct_crash t s ws : separated s ws -> unmarshal pf s (new_struct t) = Panic -> crash t ws.
Proof.
  intros W H. cbn [unmarshal new_struct] in H. apply bind_panic in H. destruct H as [H|(v & _ & H)]; [|discriminate].
  unfold unmarshal_struct in H. rewrite (separated_split _ _ W) in H. destruct W as (NE & _).
  destruct t; cbn [crash].
  6:{ destruct ws as [|w r]; [congruence|]. cbn [fields_of pas_fields] in H.
      assert (U : unmarshal_fields pf pas_fields (w :: r) (zeros pas_fields) =
        (do x <- of_hash (hash_unmarshal_base32 (repeat x00 24) w); Ok (x, tt))) by reflexivity.
      change (unmarshal_fields pf pas_fields (w :: r) (zeros pas_fields) = Panic) in H. rewrite U in H.
      apply bind_panic in H. destruct H as [H|(x & _ & H)]; [|discriminate].
      apply of_hash_panic in H. apply unmarshal_panics in H; [|reflexivity]. exists w, r. auto. }
  all: (apply fields_panic in H; [|vm_compute; reflexivity|apply zeros_sized]); destruct H as [H|(f & w & F & K & P & O)];
    [match type of H with _ < positionals ?x => let y := eval vm_compute in (positionals x) in change (positionals x) with y in H end|].
  all: try (destruct ws; [congruence|cbn in H; lia]).
  all: try exact H.
  all: cbn [fields_of] in F; repeat (destruct F as [<-|F]; [cbn [f_kind fld req] in K; try (destruct K; discriminate)|]); try destruct F.
  all: destruct P as [[P _]|[_ P]]; [discriminate|exists w; auto].
Qed.

Lemma crash_struct t s ws : separated s ws -> (t = TRcm \/ t = TGfi \/ t = TPas \/ t = TCtm /\ length ws = 1) -> crash t ws ->
  unmarshal pf s (new_struct t) = Panic.
Proof.
  intros W T C. cbn [unmarshal new_struct]. unfold unmarshal_struct. rewrite (separated_split _ _ W). destruct W as (NE & _).
  destruct T as [->|[->|[->|[-> L]]]]; cbn [crash] in C.
  - destruct ws as [|w [|? ?]]; [congruence|reflexivity|cbn in C; lia].
  - destruct ws as [|w [|? ?]]; [congruence|reflexivity|cbn in C; lia].
  - destruct C as (w & r & -> & O). apply (unmarshal_panics (repeat x00 24) w eq_refl) in O.
    assert (U : unmarshal_fields pf pas_fields (w :: r) (zeros pas_fields) =
        (do x <- of_hash (hash_unmarshal_base32 (repeat x00 24) w); Ok (x, tt))) by reflexivity.
    change (fields_of TPas) with pas_fields. rewrite U.
    destruct (hash_unmarshal_base32 (repeat x00 24) w) as [q h]. cbn [fst] in O. subst q. reflexivity.
  - destruct ws as [|w [|? ?]]; [congruence|reflexivity|discriminate].
Qed.

(** The structure with the given message type *)
Definition struct_of (name : bytes) : option stype :=
  match registered name with Some (AStruct t _) => Some t | _ => None end.

Lemma message_crash name s ws : separated s ws -> unmarshal_message pf name s = Panic ->
  exists t, struct_of name = Some t /\ crash t ws.
Proof.
  intros W H. unfold unmarshal_message in H. unfold struct_of. destruct (registered name) as [m|] eqn:R; [|discriminate].
  unfold registered in R. apply find_some in R. destruct R as [I E].
  unfold registry in I. repeat (destruct I as [<-|I]; [|]); try (destruct I);
    try (eexists; split; [reflexivity|]; now apply (struct_crash _ s)); exfalso; clear E; cbn [unmarshal] in H;
    try discriminate; apply bind_panic in H; (destruct H as [H|(x & _ & H)]; [|discriminate]).
  - now apply modfeatures_total in H.
  - now apply status_total in H.
  - now apply get_total in H.
  - now apply get_total in H.
  - unfold sid_unmarshal in H. destruct (_ =? _)%nat; discriminate.
  - now apply gpa_total in H.
Qed.

Lemma crash_message name s ws t : separated s ws -> struct_of name = Some t ->
  (t = TRcm \/ t = TGfi \/ t = TPas \/ t = TCtm /\ length ws = 1) -> crash t ws -> unmarshal_message pf name s = Panic.
Proof.
  intros W H T C. unfold struct_of in H. unfold unmarshal_message. destruct (registered name) as [m|] eqn:R; [|discriminate].
  unfold registered in R. apply find_some in R. destruct R as [I E].
  unfold registry in I. repeat (destruct I as [<-|I]; [|]); try (destruct I); try discriminate H; injection H as <-; now apply (crash_struct _ s ws).
Qed.

Lemma struct_of_name name t : struct_of name = Some t -> name = cmd (new_struct t).
Proof.
  unfold struct_of. destruct (registered name) as [m|] eqn:R; [|discriminate]. unfold registered in R. apply find_some in R. destruct R as [_ E].
  apply bytes_eqb_true in E. destruct m; try discriminate. intros [= <-]. rewrite <- E. now destruct t0.
Qed.

Lemma crash_crashing t ws : crash t ws -> crashing ws (cmd (new_struct t)).
Proof.
  intros C. destruct t; cbn [crash] in C; try contradiction; cbn [cmd new_struct].
  - now apply cr_rcm.
  - now apply cr_ctm.
  - now apply cr_gfi.
  - destruct C as (w & r & -> & O). econstructor; [reflexivity|exact O].
  - destruct C as (w & I & O). now apply (cr_sch _ w).
  - destruct C as (w & I & O). now apply (cr_res _ w).
Qed.

Lemma message_crashing name s ws : separated s ws -> unmarshal_message pf name s = Panic -> crashing ws name.
Proof.
  intros W H. destruct (message_crash name s ws W H) as (t & T & C). apply struct_of_name in T. subst name. now apply crash_crashing.
Qed.

Lemma crashing_message name s ws : separated s ws -> name = B "RCM" \/ name = B "GFI" \/ name = B "PAS" \/ name = B "CTM" /\ length ws = 1 ->
  crashing ws name -> unmarshal_message pf name s = Panic.
Proof.
  intros W T C. inversion C as [L E|L E|L E|w r E O E'|w I O E|w I O E]; subst name; try (exfalso; destruct T as [T|[T|[T|[T _]]]]; discriminate).
  - apply (crash_message _ s ws TRcm W); [reflexivity|tauto|exact L].
  - apply (crash_message _ s ws TGfi W); [reflexivity|tauto|exact L].
  - apply (crash_message _ s ws TCtm W); [reflexivity| |exact L]. destruct T as [T|[T|[T|[_ T]]]]; try discriminate. auto.
  - apply (crash_message _ s ws TPas W); [reflexivity|tauto|]. exists w, r. auto.
Qed.

(** ** Booleans *)
Lemma chat_me s ws v : separated s ws -> unmarshal pf s (new_struct TChat) = Ok (AStruct TChat v) ->
  exists b, get_field KBool "Me" chat_fields v = Some b /\
  match values (B "ME") (tl ws) with
  | [] => b = false
  | [x] => x = [] /\ b = false \/ exists c, x = [c] /\ (b = true <-> c <> x00)
  | _ => False
  end.
Proof.
  intros W H. cbn [unmarshal new_struct] in H. apply bind_ok in H. destruct H as (v' & H & E).
  assert (v' = v). { injection E as E. apply (Eqdep_dec.inj_pair2_eq_dec stype) in E; [assumption|]. decide equality. }
  subst v'. unfold unmarshal_struct in H. rewrite (separated_split _ _ W) in H.
  destruct (field_after pf (fields_of TChat) ws (zeros chat_fields) v (fld "Me" "ME" KBool) (struct_oks TChat) (names TChat) H) as (o & b & Z & G); [cbn; auto|reflexivity|].
  destruct (G KBool) as [G1 G2]. cbn [f_name f_kind fld cast] in G1, G2. exists b. split; [assumption|].
  cbn in G2. injection G2 as <-.
  cbn [f_kind f_tag fld] in Z. change (positionals (fields_of TChat)) with 1 in Z. rewrite values_tagged in Z by reflexivity.
  replace (skipn 1 ws) with (tl ws) in Z by now destruct ws.
  destruct (values (B "ME") (tl ws)) as [|x [|y l]]; cbn in Z; [congruence| |discriminate].
  destruct x as [|c [|d x]]; [left; split; [reflexivity|congruence]| |discriminate].
  right. exists c. split; [reflexivity|]. injection Z as <-. rewrite negb_true_iff. apply beq_false.
Qed.

End Decode.
