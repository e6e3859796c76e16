(** Property theorems C137 and C138: the NMDC message reader with messages of a program, and
    SetDecoder during its calls (nmdc/reader.go:104-329).
    Specification: SpecForeign.v.  Proofs: NmdcForeignFacts.v. *)
From Verif Require Import Base BaseFacts Utf8 SpecText NmdcText NmdcChat NmdcMessage LineReader SpecLine LineReaderStream NmdcReader SpecReader NmdcReaderFacts SpecStream NmdcStreamFacts SpecCalls NmdcCallFacts.
From Verif Require Import NmdcProgram NmdcForeign SpecForeign NmdcForeignFacts.
From Coq Require Import Lia.

(** ** C137: messages of a program. *)
(** Whatever the messages, callbacks and the line reader are: calls that return have done what is specified, line by line. *)
Theorem C137_calls {W A Z} (act : Z -> zaction Z) (M : rmethods W A) c f ks s r os s' r' : lawful M ->
  f_calls M act f c ks s r = Some (os, s', r') -> exists h, reading act M c s r h s' r' /\ map (fun x => fst (fst x)) h = ks /\ map snd h = os.
Proof. intros L E. exact (f_calls_say act M L c f ks s r os s' r' E). Qed.
Print Assumptions C137_calls.

(** On a stream of lines, all calls return. *)
Theorem C137_return {W A Z} (act : Z -> zaction Z) (M : rmethods W A) cfg maxline c fs rest s ks :
  Forall quiet c -> script_data c = concat fs ++ rest -> Forall (is_line "|"%byte) fs -> ~ In "|"%byte rest ->
  Forall (fun l => within maxline (length l)) fs -> within maxline (S (length rest)) ->
  exists os s' r', eventually (fun f => f_calls M act f cfg ks s (limited maxline [] c "|"%byte) = Some (os, s', r')).
Proof. intros Hq Hs HL Hr Hw Hwr. exact (f_calls_end act M cfg ks fs s _ (limited_supplies act maxline c fs rest Hq Hs HL Hr Hw Hwr)). Qed.
Print Assumptions C137_return.

(** A message given to a call is not changed unless a line that was read is of its type. *)
Theorem C137_untouched {W A Z} (act : Z -> zaction Z) (M : rmethods W A) c f l s r res l' s' r' : lawful M -> l <> [] ->
  f_call M act f c (FAny l) s r = Some (FRAny res l', s', r') -> exists ls v, lines act M c s (snd s) (GMany l) r ls v s' (GMany l') r' /\
    forall i a, nth_error l i = Some a -> Forall (fun x => ~ line_for M (fc_max_cmd c) a x) ls -> nth_error l' i = Some a.
Proof.
  intros L N E. apply f_call_says in E as (ls & v & g & LS & RP); [|exact L|congruence|discriminate]. inversion RP; subst. exists ls, v. split; [exact LS|].
  intros i a H F. exact (lines_other act M c _ _ _ _ _ _ _ _ _ i a LS F H).
Qed.
Print Assumptions C137_untouched.

(** A message of a program with the type of chat messages gets no line. *)
Theorem C137_chat {W A Z} (act : Z -> zaction Z) (M : rmethods W A) c f a s r res a' s' r' : lawful M -> r_type M a = [] -> r_kind M a <> KChat ->
  f_call M act f c (FInto a) s r = Some (FRInto res a', s', r') -> res <> Ok tt /\ a' = a.
Proof.
  intros L T K E. apply f_call_says in E as (ls & v & g & LS & RP); [|exact L|discriminate..]. inversion RP as [| ? ? ? ? GB |]; subst.
  assert (NT : forall t, ~ takes M t a) by (intros [|b t]; cbn; congruence).
  assert (D : forall s dec g r ls v s1 g1 r1, lines act M c s dec g r ls v s1 g1 r1 -> g = GOne (Some a) -> g1 = GOne (Some a) /\ forall i, v <> VDone i).
  { assert (D1 : forall s dec l v s1 dec1 g1, line M c s dec (GOne (Some a)) l v s1 dec1 g1 -> g1 = GOne (Some a) /\ forall i, v <> VDone i).
    { intros s0 dec0 l0 v0 s1 dec1 g1 LI. inversion LI as [| |? ? e| | | | | |? ? t ? ? ? ? ? ? ? ? ? ? ? ? ? OT SE]; subst; try (split; [reflexivity|discriminate]).
      - split; [reflexivity|]. destruct e; discriminate.
      - inversion SE; subst. now contradiction (NT t). }
    clear - D1. induction 1 as [| |s dec g r l s1 r1 s2 dec2 g2 ls v s3 g3 r3 LR LI _ IH|s dec g r l s1 r1 v s2 dec2 g2 LR LI NV]; intros ->; try (split; [reflexivity|discriminate]).
    - apply IH. now apply D1 in LI.
    - now apply D1 in LI. }
  destruct (D _ _ _ _ _ _ _ _ _ LS eq_refl) as [[= ->] NV]. split; [|reflexivity]. intros ->. inversion GB; subst. now apply (NV i).
Qed.
Print Assumptions C137_chat.

(** A message gets the lines that are of its type: this is false for messages with the type of chat messages, although they are
    written as chat messages (C135). *)
Theorem C137_type_refuted : ~ (forall (act : unit -> zaction unit) (M : rmethods unit bytes) c (a d : bytes),
  lawful M -> r_type M a = [] -> ~ In "|"%byte d -> ~ In x00 d -> d <> [] -> (forall x, d <> "$"%byte :: x) -> fc_raw c = [] -> fc_msg c = [] ->
  (forall dec s, r_unmarshal M a dec s d = (s, d, Ok tt)) -> exists s' r',
  eventually (fun f => f_call M act f c (FInto a) (tt, None) (limited 0 [] [RD (d ++ B "|") None] "|"%byte) = Some (FRInto (Ok tt) d, s', r'))).
Proof.
  intros H. specialize (H (fun _ => ZLast []) (mkRmethods (fun _ => []) (fun _ => KOther) (fun _ _ s d => (s, d, Ok tt)) (fun _ => []) []) (mkFcfg 32 None [] None None []) [] (B "hi")).
  destruct H as (s' & r' & f0 & E); try reflexivity; try discriminate.
  - apply contains_byte_false. reflexivity.
  - apply contains_byte_false. reflexivity.
  - specialize (E (Nat.max f0 9) ltac:(lia)). apply C137_chat in E; [|intros ? [=]|reflexivity|discriminate]. now destruct E as [E _].
Qed.
Print Assumptions C137_type_refuted.

(** With the messages of the package and callbacks that do not call SetDecoder, the calls are those of the reader of C115. *)
Theorem C137_package {W Z} (act : Z -> zaction Z) maxline dec cfg c fs rest (w : W) ks :
  Forall quiet c -> script_data c = concat fs ++ rest -> Forall (is_line "|"%byte) fs -> ~ In "|"%byte rest ->
  Forall (fun l => within maxline (length l)) fs -> within maxline (S (length rest)) ->
  exists os w' R' q', eventually (fun f => do_calls act f ks w (nreader_on maxline dec cfg c) = Some (os, w', R') /\
    f_calls package_rmethods act f (foreign_cfg cfg) (map as_call ks) (w, dec) (limited maxline [] c "|"%byte) = Some (map as_answer os, (w', nr_dec R'), q')).
Proof.
  intros Hq Hs HL Hr Hw Hwr. exact (package_calls act cfg ks fs w dec _ _ (limited_supplies act maxline c fs rest Hq Hs HL Hr Hw Hwr) (limited_supplies act maxline c fs rest Hq Hs HL Hr Hw Hwr)).
Qed.
Print Assumptions C137_package.
(** The package keeps the law for chat messages. *)
Theorem C137_lawful {W} : lawful (W:=W) package_rmethods.
Proof. intros m. now destruct m. Qed.
Print Assumptions C137_lawful.

(** For the examples: no compression. *)
Definition C137_nozlib (z : unit) : zaction unit := ZLast [].
(** For the examples: a message is its command and its payload; it counts the calls, cannot decode bytes of 128 and
    more without a decoder, fails at a question mark and panics at an exclamation mark. *)
Definition C137_methods : rmethods nat (bytes * bytes) :=
  mkRmethods fst (fun a => match fst a with [] => KChat | _ => if bytes_eqb (fst a) (B "Raw") then KRaw else KOther end)
    (fun a dec s d => let s1 := (S (fst s), snd s) in
       match d with
       | b :: _ => if beq b "?" then (s1, (fst a, B "failed"), Err (EText "bad")) else if beq b "!" then (s1, a, Panic)
                   else match dec with
                        | Some f => (s1, (fst a, match f d with Some x => x | None => [] end), Ok tt)
                        | None => if forallb (fun b => N.ltb (b2n b) 128) d then (s1, (fst a, d), Ok tt) else (s1, (fst a, B "half"), Err (EUnknownEnc d))
                        end
       | [] => (s1, (fst a, []), Ok tt)
       end)
    (fun t => (t, [])) ([], []).
(** The callback for unknown encodings sets one decoder and gives another. *)
Definition C137_unknown (s : env nat) (text : bytes) : env nat * (codec + error) :=
  ((fst s + 100, Some (fun _ => Some (B "set"))), inl (Some (fun t => Some (B "given" ++ skipn 1 t)))).
(** The lines: of the second message; of no message; chat; one that panics; one that fails; one with an unknown encoding, and another after it. *)
Definition C137_lines : list bytes := [B "$My x y|"; B "$Other z|"; B "hello|"; B "$My !|"; B "$My ?|"; B "$My " ++ [xff] ++ B "k|"; B "$My k|"].
Example C137_case : lawful C137_methods /\ Forall (is_line "|"%byte) C137_lines /\
  let chat := ([], []) in let my := (B "My", []) in let your := (B "Your", B "old") in let kept : codec := Some (fun t => Some (B "given" ++ skipn 1 t)) in exists r,
  f_calls C137_methods C137_nozlib 60 (mkFcfg 32 None [] (Some C137_unknown) None []) [FAny [your; my; my]; FInto my; FAny [your; chat]; FInto my; FInto my; FNew; FNew; FSetDec None; FAny []; FNew] (0, None)
    (limited 0 [] [RD (concat C137_lines) None] "|"%byte)
  = Some ([FRAny (Ok (Some 1)) [your; (B "My", B "x y"); my]; FRInto (Err (EUnexpectedCmd (B "My") (B "Other") (B "z"))) my; FRAny (Ok (Some 1)) [your; ([], B "hello")];
      FRInto Panic my; FRInto (Err (EText "bad")) (B "My", B "failed"); FRNew (Ok (Some (B "My", B "givenk"))); FRNew (Ok (Some (B "My", B "given"))); FRSet; FRAny Panic []; FRNew (Err EEOF)], (107, None), r).
Proof.
  split; [|split].
  - intros [[|b t] d]; [reflexivity|]. cbn [C137_methods r_kind fst]. destruct (bytes_eqb (b :: t) (B "Raw")); discriminate.
  - unfold C137_lines. repeat (apply Forall_cons; [match goal with |- is_line _ ?l => exists (removelast l); split; [vm_compute; reflexivity|apply contains_byte_false; vm_compute; reflexivity] end|]). constructor.
  - eexists. vm_compute. reflexivity.
Qed.

(** ** C138: SetDecoder during a call. *)
(** What callbacks and messages do to the decoder by SetDecoder has no effect on the call they run in: without it, the call gives the
    same and leaves the program in the same state. *)
Theorem C138_call {W A Z} (act : Z -> zaction Z) (M N : rmethods W A) cfg cfg' maxline c fs rest k w dec :
  alike_rmethods M N -> alike_cfg cfg cfg' ->
  Forall quiet c -> script_data c = concat fs ++ rest -> Forall (is_line "|"%byte) fs -> ~ In "|"%byte rest ->
  Forall (fun l => within maxline (length l)) fs -> within maxline (S (length rest)) ->
  exists o w' dec1 dec2 r', eventually (fun f => f_call M act f cfg k (w, dec) (limited maxline [] c "|"%byte) = Some (o, (w', dec1), r') /\
    f_call N act f cfg' k (w, dec) (limited maxline [] c "|"%byte) = Some (o, (w', dec2), r')).
Proof. intros AM AC Hq Hs HL Hr Hw Hwr. exact (sim_call act M N cfg cfg' AM AC k fs w dec _ (limited_supplies act maxline c fs rest Hq Hs HL Hr Hw Hwr)). Qed.
Print Assumptions C138_call.
(** The same for several calls is false: the decoder is used by the next call. *)
Theorem C138_calls_refuted : ~ (forall (act : unit -> zaction unit) (M N : rmethods nat (bytes * bytes)) cfg cfg' fs ks w dec f o1 o2 s1 s2 r1 r2,
  alike_rmethods M N -> alike_cfg cfg cfg' -> Forall (is_line "|"%byte) fs ->
  f_calls M act f cfg ks (w, dec) (limited 0 [] [RD (concat fs) None] "|"%byte) = Some (o1, s1, r1) ->
  f_calls N act f cfg' ks (w, dec) (limited 0 [] [RD (concat fs) None] "|"%byte) = Some (o2, s2, r2) -> o1 = o2).
Proof.
  intros H. specialize (H C137_nozlib C137_methods C137_methods (mkFcfg 32 None [fun s _ _ => ((fst s, Some (fun _ => Some (B "set"))), HPass)] None None []) (mkFcfg 32 None [fun s _ _ => (s, HPass)] None None [])
    [B "$My x|"; B "$My x|"] [FNew; FNew] 0 None 40).
  assert (E : [FRNew (Ok (Some (B "My", B "x"))); FRNew (Ok (Some (B "My", B "set")))] = [FRNew (Ok (Some (B "My", B "x"))); FRNew (Ok (Some (B "My", B "x")))]).
  2: discriminate E.
  eapply H; [| | |vm_compute; reflexivity|vm_compute; reflexivity].
  - repeat split. intros a dec s t d S. cbn. unfold same_program in *. destruct d as [|b d]; [cbn; now rewrite S|]. destruct (beq b "?"); [cbn; now rewrite S|]. destruct (beq b "!"); [cbn; now rewrite S|].
    destruct dec; [cbn; now rewrite S|]. destruct (forallb _ (b :: d)); cbn; now rewrite S.
  - repeat split; try constructor; try constructor; cbn; auto.
  - repeat (apply Forall_cons; [match goal with |- is_line _ ?l => exists (removelast l); split; [vm_compute; reflexivity|apply contains_byte_false; vm_compute; reflexivity] end|]). constructor.
Qed.
Print Assumptions C138_calls_refuted.

(** A decoder set in a callback is used from the next call on; one set in the callback for unknown encodings is replaced by the one it gives. *)
Example C138_case : let set : codec := Some (fun _ => Some (B "set")) in
  let h := fun (s : env nat) (_ : option bytes) (_ : bytes) => ((S (fst s), set), HPass) in let k := fun (s : env nat) (_ : option bytes) (_ : bytes) => ((S (fst s), snd s), HPass) in
  let cfg := mkFcfg (A:=bytes * bytes) 32 None [h] None None [] in let cfg' := mkFcfg 32 None [k] None None [] in
  alike_rmethods C137_methods C137_methods /\ alike_cfg cfg cfg' /\ exists r r',
  f_calls C137_methods C137_nozlib 40 cfg [FNew; FNew] (0, None) (limited 0 [] [RD (B "$My x|$My y|") None] "|"%byte) = Some ([FRNew (Ok (Some (B "My", B "x"))); FRNew (Ok (Some (B "My", B "set")))], (4, set), r) /\
  f_calls C137_methods C137_nozlib 40 cfg' [FNew; FNew] (0, None) (limited 0 [] [RD (B "$My x|$My y|") None] "|"%byte) = Some ([FRNew (Ok (Some (B "My", B "x"))); FRNew (Ok (Some (B "My", B "y")))], (4, None), r').
Proof.
  cbv zeta. split; [|split].
  - repeat split. intros a dec s t d S. cbn. unfold same_program in *. destruct d as [|b d]; [cbn; now rewrite S|]. destruct (beq b "?"); [cbn; now rewrite S|]. destruct (beq b "!"); [cbn; now rewrite S|].
    destruct dec; [cbn; now rewrite S|]. destruct (forallb _ (b :: d)); cbn; now rewrite S.
  - repeat split; try constructor; try constructor; cbn; auto. unfold same_program in *. cbn. now f_equal.
  - do 2 eexists. split; vm_compute; reflexivity.
Qed.
