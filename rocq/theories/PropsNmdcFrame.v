(** Properties C49-C53, C78, C79: framing, crashes, keys, reused messages and extension sets. *)
From Coq Require Import Lia Sorted Permutation.
From Verif Require Import Base BaseFacts SpecText SpecHash SpecNmdc SpecFrame SpecCommand NmdcText NmdcTextFacts NmdcChat NmdcHub NmdcFiles NmdcUser NmdcMessage
  NmdcFrameFacts NmdcDecodeFacts NmdcLimitsFacts NmdcReuseFacts NmdcKeyFacts NmdcDecide Base32 Base32Facts Tiger TigerFacts.

(** ** C49: one message, one frame *)
Theorem C49_frame_partial : forall enc buf m p, msg_marshal enc m = Ok p -> (command m <> [] \/ p <> []) ->
  exists f, framed (command m) p f /\ marshal_to enc buf m = Ok (buf ++ f) /\
    (sized m -> Forall (fun x => ~ In "|"%byte x) (raw_fields m) -> exists body, f = body ++ B "|" /\ ~ In "|"%byte body).
Proof.
  intros enc buf m p H N. destruct (marshal_to_frame enc buf m p H N) as (f & F & E). exists f. split; [exact F|]. split; [exact E|]. intros S R.
  apply (framed_body _ _ _ _ F); [discriminate|discriminate| |exact (payload_no "|" (or_introl eq_refl) enc m p S R H)].
  apply type_clean; [tauto|]. intros t d ->. inversion R; assumption.
Qed.
Print Assumptions C49_frame_partial.
(** Missing: chat messages without any text. For them it is false: a byte of the buffer is lost. *)
Theorem C49_frame_refuted : msg_marshal None (MChat chat0) = Ok [] /\ marshal_to None (B "$Hello x|") (MChat chat0) = Ok (B "$Hello x|") /\
  marshal_to None (B "abc") (MChat chat0) = Ok (B "ab|").
Proof. repeat split; vm_compute; reflexivity. Qed.
Print Assumptions C49_frame_refuted.
(** A message that cannot be encoded has no frame. *)
Theorem C49_errors : forall enc buf m e, msg_marshal enc m = Err e <-> marshal_to enc buf m = Err e.
Proof.
  intros enc buf m e. unfold marshal_to. destruct (msg_marshal enc m) as [p|x|]; cbn [bind]; [|tauto|tauto]. split; [discriminate|].
  destruct p; [|discriminate]. destruct (buf ++ msg_head (msg_type m)); discriminate.
Qed.
Print Assumptions C49_errors.
Definition C49_message : msg := MCtm (mk_ctm (B "jo|hn") [] (B "1.2.3.4:5") 0 true).
Example C49_case : (exists p, msg_marshal None C49_message = Ok p) /\ msg_type C49_message <> [] /\ sized C49_message /\ Forall (fun x => ~ In "|"%byte x) (raw_fields C49_message) /\
  marshal_to None (B "$GetPass|") C49_message = Ok (B "$GetPass|$ConnectToMe jo&#124;hn 1.2.3.4:5S|") /\
  marshal_to None (B "$GetPass|") (MNoArgs KZOn) = Ok (B "$GetPass|$ZOn|") /\
  marshal_to None (B "$GetPass|") (MChat (mk_chat (B "a") (B "b|"))) = Ok (B "$GetPass|<a> b&#124;|").
Proof. split; [eexists; vm_compute; reflexivity|]. split; [discriminate|]. split; [exact I|]. split; [cbn [raw_fields C49_message ct_address]; conds|]. repeat split; vm_compute; reflexivity. Qed.
(** The condition on raw fields is needed. *)
Theorem C49_raw_needed : marshal None (MSupports [B "a|b"]) = Ok (B "$Supports a|b|").
Proof. vm_compute. reflexivity. Qed.
Print Assumptions C49_raw_needed.

(** ** C50: crashes of the encoder *)
Theorem C50_crash_refuted : marshal None (MChat chat0) = Panic.
Proof. vm_compute. reflexivity. Qed.
Print Assumptions C50_crash_refuted.
(** The only crash: a chat (or nameless raw) message without any text, encoded into an empty buffer. *)
Theorem C50_crash_iff : forall enc buf m, sized m -> (marshal_to enc buf m = Panic <-> buf = [] /\ msg_type m = [] /\ msg_marshal enc m = Ok []).
Proof. exact marshal_to_panics. Qed.
Print Assumptions C50_crash_iff.
Theorem C50_payload : forall enc m, sized m -> msg_marshal enc m <> Panic.
Proof. exact payload_total. Qed.
Print Assumptions C50_payload.
Theorem C50_type_empty : forall m, msg_type m = [] -> (exists c, m = MChat c) \/ exists d, m = MRaw [] d.
Proof. exact type_nil. Qed.
Print Assumptions C50_type_empty.
Example C50_case : sized (MSA (mk_sa (B "LWPNACQDBZRYXW3VHJVCJ64Q") (B "x"))) /\ exists e, marshal None (MName KHello (B "a$b")) = Err e.
Proof. split; [reflexivity|]. eexists. vm_compute. reflexivity. Qed.

(** ** C51: crashes of the decoder *)
Theorem C51_crash_refuted : snd (msg_unmarshal None (new_message (B "Search")) (B "1.2.3.4:5 F?T?0?9?TTH:AAAAAAAAAAAAAAAAAAAAAAAAAAAAAAAAAAAAAAAA")) = Panic.
Proof. vm_compute. reflexivity. Qed.
Print Assumptions C51_crash_refuted.
(** Every hash with a symbol too many crashes ... *)
Theorem C51_crash : forall dec s h, starts_with_symbols 40 (unbroken h) -> ~ ends_in "$" h -> snd (search_unmarshal dec s (B "a F?T?0?9?TTH:" ++ h)) = Panic.
Proof. exact search_crashes. Qed.
Print Assumptions C51_crash.
(** ... and nothing else does. *)
Theorem C51_no_other_crash_partial : forall dec m d, sized m -> snd (msg_unmarshal dec m d) = Panic ->
  exists s pre h, m = MSearch s /\ d = pre ++ B "?TTH:" ++ h /\ starts_with_symbols 40 (unbroken h).
Proof. exact unmarshal_panics_only. Qed.
Print Assumptions C51_no_other_crash_partial.
Example C51_case : starts_with_symbols 40 (unbroken (repeat "A"%byte 20 ++ [x0d; x0a] ++ repeat "7"%byte 20 ++ B "junk")) /\ sized (new_message (B "Search")).
Proof.
  split; [|exact I]. exists (repeat "A"%byte 20 ++ repeat "7"%byte 20), (B "junk"), (repeat 0%N 20 ++ repeat 31%N 20). split; [vm_compute; reflexivity|]. split; [reflexivity|].
  assert (SA : symbol "A" 0) by (apply (sy_letter 0); lia). assert (S7 : symbol "7" 31) by (apply (sy_digit 31); lia).
  cbn [repeat app]. repeat (apply Forall2_cons; [assumption|]). constructor.
Qed.

(** ** C52: keys *)
Theorem C52_key : forall m, let l := (if lk_noext m then [] else B "EXTENDEDPROTOCOL") ++ lk_lock m in 2 <= length l ->
  exists t, lock_key m = Ok t /\ key_text x05 l t /\ forall c, In c reserved -> ~ In c t.
Proof.
  intros m l H. destruct (custom_key_text m x05 false H) as (t & E & K). exists t. split; [exact E|]. split; [exact K|]. intros c. exact (key_text_clean _ _ _ c K).
Qed.
Print Assumptions C52_key.
(** The description determines the key. *)
Lemma Forall2_fun {A B} (R : A -> B -> Prop) l s s' : (forall a x y, R a x -> R a y -> x = y) -> Forall2 R l s -> Forall2 R l s' -> s = s'.
Proof.
  intros H F. revert s'. induction F as [|a x l s Hx F IH]; intros s' F'; inversion F'; subst; [reflexivity|]. f_equal; [eapply H; eassumption|auto].
Qed.
Theorem C52_key_unique : forall magic l t t', key_text magic l t -> key_text magic l t' -> t = t'.
Proof.
  intros magic l t t' (k & s & ts & C & W & R & ->) (k' & s' & ts' & C' & W' & R' & ->).
  assert (k = k').
  { destruct C as (L & E & C & x & y & X & Y & K). destruct C' as (_ & E' & C' & x' & y' & X' & Y' & K').
    assert (x = x') by (eapply is_xor_fun; eassumption). subst x'. assert (y = y') by (eapply is_xor_fun; eassumption). subst y'.
    apply nth_ext with (d := x00) (d' := x00); [congruence|]. intros [|n] Hn; [eapply is_xor_fun; eassumption|].
    eapply is_xor_fun; [apply C; lia|]. apply C'. lia. }
  subst k'. assert (s = s') by (eapply Forall2_fun; [|eassumption|eassumption]; unfold swapped; intros a x y Hx Hy; apply b2n_inj; congruence). subst s'.
  f_equal. eapply Forall2_fun; [|eassumption|eassumption]. intros c x y [[Hx ->]|[Hx ->]] [[Hy ->]|[Hy ->]]; try contradiction; reflexivity.
Qed.
Print Assumptions C52_key_unique.
(** False: the lock can be recovered. These two locks have the same key. *)
Definition C52_lock1 : bytes := [xf7; x05] ++ B "W" ++ [x13] ++ B "'" ++ [xc3; xc0; xc3; xc0; x92] ++ B "`".
Definition C52_lock2 : bytes := [xf7; xa5; xe1; xd5] ++ B "1212`" ++ [x92; x92].
Theorem C52_inverse_refuted : C52_lock1 <> C52_lock2 /\ lock_key (mk_lock true C52_lock1 [] []) = Ok (B "/%DCN000%//%DCN000%/") /\
  lock_key (mk_lock true C52_lock2 [] []) = Ok (B "/%DCN000%//%DCN000%/").
Proof. split; [discriminate|]. split; vm_compute; reflexivity. Qed.
Print Assumptions C52_inverse_refuted.
(** True when no replacement sequence occurs in the key bytes themselves. Missing: other locks, for which it is false. *)
Theorem C52_inverse_partial : forall magic l l' s s' t, key_bytes magic l s -> key_bytes magic l' s' ->
  ~ substring (B "/%DCN") s -> ~ substring (B "/%DCN") s' -> key_text magic l t -> key_text magic l' t -> l = l'.
Proof.
  intros magic l l' s s' t (k & C & W) (k' & C' & W') N N' T T'.
  assert (U : forall l k s t, chained magic l k -> Forall2 swapped k s -> key_text magic l t -> exists ts, Forall2 replaced s ts /\ t = concat ts).
  { clear. intros l k s t (L & E & C & x & y & X & Y & K) W (k' & s' & ts & (_ & E' & C' & x' & y' & X' & Y' & K') & W' & R & ->).
    assert (x = x') by (eapply is_xor_fun; eassumption). subst x'. assert (y = y') by (eapply is_xor_fun; eassumption). subst y'.
    assert (k = k').
    { apply nth_ext with (d := x00) (d' := x00); [congruence|]. intros [|n] Hn; [eapply is_xor_fun; eassumption|]. eapply is_xor_fun; [apply C; lia|]. apply C'. lia. }
    subst k'. assert (s = s') by (eapply Forall2_fun; [|eassumption|eassumption]; unfold swapped; intros a u v Hx Hy; apply b2n_inj; congruence). subst s'.
    exists ts. auto. }
  destruct (U _ _ _ _ C W T) as (ts & R & ->). destruct (U _ _ _ _ C' W' T') as (ts' & R' & E).
  assert (s = s') by (eapply replaced_inj; eassumption). subst s'.
  assert (k = k') by (eapply Forall2_inj_r; [apply swapped_inj|eassumption|eassumption]). subst k'. eapply chained_inj; eassumption.
Qed.
Print Assumptions C52_inverse_partial.
Example C52_case : lock_key (mk_lock false (B "_verlihub") (B "version0.9.8e-r2") []) = custom_key (mk_lock true (B "EXTENDEDPROTOCOL_verlihub") [] []) x05 false /\
  exists t, lock_key (mk_lock false (B "_verlihub") (B "version0.9.8e-r2") []) = Ok t /\ ~ substring (B "/%DCN") (map swap_nibbles (B "_verlihub")).
Proof. split; [reflexivity|]. eexists. split; [vm_compute; reflexivity|]. easy_cond. Qed.

Example C52_bytes_case : key_bytes x05 (B "AB") (B "t0") /\ ~ substring (B "/%DCN") (B "t0") /\ lock_key (mk_lock true (B "AB") [] []) = Ok (B "t0").
Proof.
  split; [|split; [easy_cond|vm_compute; reflexivity]]. exists (B "G" ++ [x03]). split; [|repeat constructor].
  split; [cbn; lia|]. split; [reflexivity|]. split; [intros i Hi; replace i with 1 by (cbn in Hi; lia); vm_compute; reflexivity|]. exists x03, "B"%byte. repeat split.
Qed.

(** ** C53: crashes of the key computation *)
Theorem C53_crash_refuted : exists m, msg_unmarshal None (new_message (B "Lock")) (B "x Pk=hub") = (MLock m, Ok tt) /\ lock_key m = Panic.
Proof. eexists. split; [vm_compute; reflexivity|reflexivity]. Qed.
Print Assumptions C53_crash_refuted.
Theorem C53_crash_iff : forall m, lock_key m = Panic <-> length ((if lk_noext m then [] else B "EXTENDEDPROTOCOL") ++ lk_lock m) < 2.
Proof. intros m. exact (custom_key_panics m x05 false). Qed.
Print Assumptions C53_crash_iff.
Example C53_case : length (lk_lock (mk_lock true (B "x") (B "hub") [])) < 2 /\ lock_key (mk_lock false [] [] []) <> Panic.
Proof. split; [cbn; lia|vm_compute; discriminate]. Qed.

(** ** C78: decoding into a used message *)
(** False for these ten types: the line is accepted but something old remains. *)
Definition C78_cases : list (msg * bytes) :=
  [(MErr KFailed (Some (B "old")), []);
   (MChat (mk_chat (B "old") []), B "text");
   (MUserCommand (mk_ucmd 0 0 [B "old"] (B "old")), B "255 1");
   (MCtm (mk_ctm [] (B "old") [] 0 true), B "nick 1.2.3.4:5");
   (MAdcGet (mk_adcget [] [] 0 0 true (Some 1%N)), B "file x 0 1");
   (MAdcSnd (mk_adcsnd [] [] 0 0 true), B "file x 0 1");
   (MHubInfo (mk_hubinfo [] [] [] 0 0 0 0 [] [] [] [] (B "old")), B "name");
   (MSearch (mk_search (B "old") [] false false 0 0 (B "old") (Some (repeat x01 24))), B "Hub:nick F?T?0?1?x");
   (MSR (mk_sr [] [] false 0 0 0 (B "old") (Some (repeat x01 24)) [] (B "old")), B "nick a" ++ [x05] ++ B "1 2/3" ++ [x05] ++ B "hub (x:1)");
   (MMyInfo (mk_myinfo [] [] (B "old") [] x00 0 0 0 0 [] [] x00 [] 9), B "$ALL nick $ $$$$")].
Theorem C78_reuse_refuted : Forall (fun c => let '(m, d) := c in sized m /\ same_kind m (new_message (msg_type m)) /\
  snd (msg_unmarshal None m d) = Ok tt /\ snd (msg_unmarshal None (new_message (msg_type m)) d) = Ok tt /\
  fst (msg_unmarshal None m d) <> fst (msg_unmarshal None (new_message (msg_type m)) d)) C78_cases.
Proof. repeat (constructor; [split; [vm_compute; tauto|]; split; [vm_compute; tauto|]; split; [vm_compute; reflexivity|]; split; [vm_compute; reflexivity|vm_compute; discriminate]|]). constructor. Qed.
Print Assumptions C78_reuse_refuted.
(** Whether a line is accepted never depends on the old contents. *)
Theorem C78_acceptance : forall dec m1 m2 d, same_kind m1 m2 -> sized m1 -> sized m2 -> snd (msg_unmarshal dec m1 d) = snd (msg_unmarshal dec m2 d).
Proof. exact acceptance_independent. Qed.
Print Assumptions C78_acceptance.
(** For all other types, and for the ten when the fields in question are zero, nothing old remains.
    Missing: the ten types with old contents, for which it is false. *)
Theorem C78_reuse_partial : forall dec m d, sized m -> cleared m -> same_kind m (new_message (msg_type m)) ->
  snd (msg_unmarshal dec m d) = snd (msg_unmarshal dec (new_message (msg_type m)) d) /\
  (snd (msg_unmarshal dec m d) = Ok tt -> fst (msg_unmarshal dec m d) = fst (msg_unmarshal dec (new_message (msg_type m)) d)).
Proof. intros dec m d S C K. destruct (new_message_cleared (msg_type m)) as [C' S']. exact (reuse_cleared dec m _ d K S S' C C'). Qed.
Print Assumptions C78_reuse_partial.
Theorem C78_other_types : forall m, sets_all m -> cleared m.
Proof. intros m. destruct m; cbn; tauto. Qed.
Print Assumptions C78_other_types.
Example C78_case : let m := MPm (mk_pm (B "old") (B "old") (B "old") (B "old")) in sets_all m /\ sized m /\ same_kind m (new_message (msg_type m)) /\
  msg_unmarshal None m (B "a From: b $<c> d") = (MPm (mk_pm (B "a") (B "b") (B "c") (B "d")), Ok tt).
Proof. cbv zeta. repeat split; vm_compute; reflexivity. Qed.

(** ** C79: extension sets *)
Theorem C79_supports : forall m m2, exists keep, supports_intersect m m2 = filter keep m2 /\ forall e, keep e = true <-> In e m.
Proof. exact supports_intersect_spec. Qed.
Print Assumptions C79_supports.
Theorem C79_intersect : forall f f2, NoDup (ext_intersect f f2) /\ forall e, In e (ext_intersect f f2) <-> In e f /\ In e f2.
Proof. exact ext_intersect_spec. Qed.
Print Assumptions C79_intersect.
Theorem C79_intersect_list : forall f f2, NoDup (ext_intersect_list f f2) /\ forall e, In e (ext_intersect_list f f2) <-> In e f /\ In e f2.
Proof. exact ext_intersect_spec. Qed.
Print Assumptions C79_intersect_list.
Theorem C79_clone : forall f, NoDup (ext_clone f) /\ forall e, In e (ext_clone f) <-> In e f.
Proof. exact ext_clone_spec. Qed.
Print Assumptions C79_clone.
Theorem C79_set : forall f n, (forall e, In e (ext_set f n) <-> e = n \/ In e f) /\ (NoDup f -> NoDup (ext_set f n)) /\ (ext_has f n = true <-> In n f).
Proof. intros f n. split; [exact (ext_set_in f n)|]. split; [exact (ext_set_nodup f n)|exact (has_ext_in n f)]. Qed.
Print Assumptions C79_set.
Theorem C79_list : forall f, Permutation f (ext_list f) /\ Sorted string_le (ext_list f).
Proof. intros f. split; [exact (sort_perm f)|exact (sort_sorted f)]. Qed.
Print Assumptions C79_list.
Example C79_case : supports_intersect [B "b"; B "c"] [B "c"; B "x"; B "b"; B "c"] = [B "c"; B "b"; B "c"] /\
  ext_intersect [B "b"; B "c"] [B "c"; B "x"] = [B "c"] /\ ext_list [B "TTHS"; B "ADCGet"; B "TTH"] = [B "ADCGet"; B "TTH"; B "TTHS"].
Proof. repeat split. Qed.
