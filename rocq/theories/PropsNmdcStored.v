(** Property C126: callbacks of the NMDC message reader that use its Decoder and SetDecoder.
    Model: NmdcStored.v.  Specification: SpecStored.v.  Proofs: NmdcStoredFacts.v. *)
From Verif Require Import Base BaseFacts Utf8 NmdcText NmdcChat NmdcMessage SpecFrame SpecReuse NmdcDecodeFacts NmdcReuseFacts.
From Verif Require Import LineReader SpecLine LineReaderStream NmdcReader SpecReader NmdcReaderFacts SpecStream NmdcStreamFacts SpecCalls NmdcCallFacts NmdcStored SpecStored NmdcStoredFacts.
From Coq Require Import Lia.

(** Any calls, with any callbacks, on any stream. *)
Theorem C126_calls {U Z} (act : Z -> zaction Z) maxline dec (cfg : ncfg (U * codec)) c fs rest u ks :
  Forall quiet c -> script_data c = concat fs ++ rest -> Forall (is_line "|"%byte) fs -> ~ In "|"%byte rest ->
  Forall (fun l => within maxline (length l)) fs -> within maxline (S (length rest)) -> Forall call_sized ks -> typed cfg ->
  exists os u2 R2, stored_on cfg u dec fs ks os u2 (nr_dec R2) /\
    eventually (fun f => stored_calls act f ks u (nreader_on maxline dec cfg c) = Some (os, u2, R2)).
Proof.
  intros Hq Hs HL Hr Hw Hwr HZ TY.
  destruct (stored_say act cfg TY ks fs u dec _ HL (limited_supplies act maxline c fs rest Hq Hs HL Hr Hw Hwr) HZ) as (os & u2 & dec2 & R2 & C & E & <-).
  now exists os, u2, R2.
Qed.
Print Assumptions C126_calls.

(** What callbacks store makes no difference to the answer of the call in progress: it is that of callbacks
    [cfg0] that do the same but store nothing.  Callbacks that do not store leave the same decoder, too. *)
Theorem C126_in_progress {U Z} (act : Z -> zaction Z) maxline dec cfg (cfg0 : ncfg U) c fs rest u k :
  Forall quiet c -> script_data c = concat fs ++ rest -> Forall (is_line "|"%byte) fs -> ~ In "|"%byte rest ->
  Forall (fun l => within maxline (length l)) fs -> within maxline (S (length rest)) -> mirrors cfg cfg0 ->
  exists o u2 dec2 dec0 r2 r0,
    eventually (fun f => stored_call act f k u (nreader_on maxline dec cfg c) = Some (o, u2, mkNreader r2 dec2 cfg)) /\
    eventually (fun f => do_call act f k u (nreader_on maxline dec cfg0 c) = Some (o, u2, mkNreader r0 dec0 cfg0)) /\
    (stores_nothing cfg -> dec2 = dec0).
Proof.
  intros Hq Hs HL Hr Hw Hwr MI.
  exact (mirror_call cfg cfg0 MI act k fs u dec _ _ (limited_supplies act maxline c fs rest Hq Hs HL Hr Hw Hwr) (limited_supplies act maxline c fs rest Hq Hs HL Hr Hw Hwr)).
Qed.
Print Assumptions C126_in_progress.

(** For the examples: no compression, and two decoders. *)
Definition C126_nozlib (z : unit) : zaction unit := ZLast [].
(** Every byte becomes 'x'. *)
Definition C126_x : bytes -> option bytes := fun s => Some (map (fun _ => "x"%byte) s).
(** Every byte becomes 'y'. *)
Definition C126_y : bytes -> option bytes := fun s => Some (map (fun _ => "y"%byte) s).
(** A message callback that counts, drops a Hello and stores the first decoder, or stores none for a Quit. *)
Definition C126_hook (p : (nat * codec) * msg) : ((nat * codec) * msg) * hook_res :=
  let '((n, d), m) := p in
  match m with
  | MName KHello (b :: _) => if beq b "a"%byte then (((S n, Some C126_x), m), HDrop) else (((S n, d), m), HPass)
  | MName KQuit _ => (((S n, None), m), HPass)
  | _ => (((S n, d), m), HPass)
  end.
(** The same without decoders. *)
Definition C126_hook0 (p : nat * msg) : (nat * msg) * hook_res :=
  let (n, m) := p in
  match m with
  | MName KHello (b :: _) => ((S n, m), if beq b "a"%byte then HDrop else HPass)
  | _ => ((S n, m), HPass)
  end.
(** This one stores a decoder and gives another, which wins. *)
Definition C126_unknown (w : nat * codec) (t : bytes) : (nat * codec) * (codec + error) := ((S (fst w), Some C126_x), inl (Some C126_y)).
(** Callbacks with the message callback. *)
Definition C126_cfg : ncfg (nat * codec) := mkNcfg 32 None [] None None [C126_hook].
(** Without decoders. *)
Definition C126_cfg0 : ncfg nat := mkNcfg 32 None [] None None [C126_hook0].
(** With the callback for unknown encodings. *)
Definition C126_asked : ncfg (nat * codec) := mkNcfg 32 None [] (Some C126_unknown) None [C126_hook].
(** Answers, state of the callbacks and what the decoder makes of "ab". *)
Definition C126_seen {A U} (x : option (A * U * nreader (U * codec) unit)) : option (A * U * option bytes) :=
  match x with Some (a, b, R) => Some (a, b, match nr_dec R with Some d => d (B "ab") | None => None end) | None => None end.
(** The lines. *)
Definition C126_text : bytes := B "$Hello a|$Hello " ++ [xff] ++ B "|$Hello " ++ [xff] ++ B "|$Quit q|$Hello b|".
Example C126_case :
  (* the Hello behind the dropped one is read without the decoder, the next call uses it until the callback for Quit removes it *)
  C126_seen (stored_calls C126_nozlib 50 [CNew; CNew; CNew; CNew] 0 (nreader_on 0 None C126_cfg [RD C126_text None])) =
    Some ([RNew (Err (EUnknownEnc [xff])); RNew (Ok (Some (MName KHello (B "x")))); RNew (Ok (Some (MName KQuit (B "x")))); RNew (Ok (Some (MName KHello (B "b"))))], 4, None) /\
  (* with a callback that stores one decoder and gives another *)
  C126_seen (stored_calls C126_nozlib 50 [CNew; CNew] 0 (nreader_on 0 None C126_asked [RD C126_text None])) =
    Some ([RNew (Ok (Some (MName KHello (B "y")))); RNew (Ok (Some (MName KHello (B "y"))))], 4, Some (B "yy")) /\
  mirrors C126_cfg C126_cfg0 /\ typed C126_cfg.
Proof.
  split; [vm_compute; reflexivity|]. split; [vm_compute; reflexivity|]. split.
  - split; cbn [C126_cfg C126_cfg0 nc_max_cmd nc_keep_alive nc_raw nc_unknown nc_unmarshal_err nc_msg]; auto. constructor; [|constructor].
    intros [n d] m. unfold C126_hook, C126_hook0. cbn [fst]. destruct m; try reflexivity. destruct k; try reflexivity. destruct s as [|b s]; [reflexivity|]. destruct (beq b "a"%byte); reflexivity.
  - constructor; [|constructor]. intros [[n d] m] H. cbn [snd] in H. unfold C126_hook. destruct m; try exact H. destruct k; try exact H. destruct s as [|b s]; [exact H|]. destruct (beq b "a"%byte); exact H.
Qed.

(** Finding: a decoder stored by a callback does not count for the remaining lines of the call in progress,
    which goes on after a dropped message. *)
Theorem C126_applies_refuted : ~ forall (cfg : ncfg (nat * codec)) d l1 l2 m1 m2,
  nc_raw cfg = [] -> nc_unknown cfg = None -> nc_msg cfg = [C126_hook] ->
  is_line "|"%byte l1 -> line_means None (nc_max_cmd cfg) l1 (Ok (Some m1)) -> (forall n d0, C126_hook ((n, d0), m1) = (((S n, Some d), m1), HDrop)) ->
  is_line "|"%byte l2 -> line_means (Some d) (nc_max_cmd cfg) l2 (Ok (Some m2)) -> msg_type m2 = msg_type m1 ->
  exists u R, eventually (fun f => stored_call C126_nozlib f CNew 0 (nreader_on 0 None cfg [RD (l1 ++ l2) None]) = Some (RNew (Ok (Some m2)), u, R)).
Proof.
  intros H. set (l1 := B "$Hello a|"). set (l2 := B "$Hello " ++ [xff] ++ B "|").
  assert (L1 : is_line "|"%byte l1) by (exists (B "$Hello a"); split; [reflexivity|apply contains_byte_false; reflexivity]).
  assert (L2 : is_line "|"%byte l2) by (exists (B "$Hello " ++ [xff]); split; [reflexivity|apply contains_byte_false; reflexivity]).
  assert (F : forall b, ~ In x00 (B "$Hello " ++ b) -> line_for 32 ((B "$Hello " ++ b) ++ B "|") (B "Hello") b).
  { intros b N. exists (B "$Hello " ++ b), (Some (B "Hello")). split; [reflexivity|]. split; [exact N|]. split.
    - apply (pa_args (B "Hello") b). apply contains_byte_false. reflexivity.
    - split; [reflexivity|]. split; [discriminate|]. split; [vm_compute; discriminate|]. apply ascii_name_spec. reflexivity. }
  assert (M1 : line_means None 32 l1 (Ok (Some (MName KHello (B "a"))))).
  { apply (means_decoded None 32 l1 (B "Hello") (B "a") (MName KHello (B "a")) (Ok tt)); [|vm_compute; reflexivity]. apply (F (B "a")). apply contains_byte_false. reflexivity. }
  assert (M2 : line_means (Some C126_x) 32 l2 (Ok (Some (MName KHello (B "x"))))).
  { apply (means_decoded (Some C126_x) 32 l2 (B "Hello") [xff] (MName KHello (B "x")) (Ok tt)); [|vm_compute; reflexivity]. apply (F [xff]). apply contains_byte_false. reflexivity. }
  destruct (H C126_cfg C126_x l1 l2 _ _ eq_refl eq_refl eq_refl L1 M1 (fun n d0 => eq_refl) L2 M2 eq_refl) as (u & R & f & E).
  assert (K : exists R', eventually (fun f => read_msg (W:=nat * codec) C126_nozlib f (0, None) (nreader_on 0 None (storing C126_cfg) [RD (l1 ++ l2) None]) = Some (Err (EUnknownEnc [xff]), (1, Some C126_x), R'))).
  { assert (HS : supplies (W:=nat * codec) C126_nozlib (nr_line (nreader_on 0 None (storing C126_cfg) [RD (l1 ++ l2) None])) [l1; l2]).
    { apply (limited_supplies C126_nozlib 0 [RD (l1 ++ l2) None] [l1; l2] []).
      - constructor; [now right|constructor].
      - reflexivity.
      - constructor; [exact L1|constructor; [exact L2|constructor]].
      - intros [].
      - constructor; [left; lia|constructor; [left; lia|constructor]].
      - left; lia. }
    assert (T : exists s, through (W:=nat * codec) (storing C126_cfg) [l1; l2] (mkRs (0, None) None None SNil []) = (LReturn (Some (EUnknownEnc [xff])), s, []) /\ rs_w s = (1, Some C126_x)) by (eexists; split; vm_compute; reflexivity).
    destruct T as (s & T & W). destruct (supplies_msg (W:=nat * codec) C126_nozlib _ (0, None) (nreader_on 0 None (storing C126_cfg) [RD (l1 ++ l2) None]) _ s [] HS T) as (r & _ & K).
    eexists. eapply eventually_mono; [|exact K]. intros f0 J. cbv beta in J. rewrite J. rewrite W. reflexivity. }
  destruct K as (R' & g & E'). specialize (E (Nat.max f g) ltac:(lia)). specialize (E' (Nat.max f g) ltac:(lia)).
  pose proof (f_equal (fun x => match (match x with Some (r, w', R0) => Some (RNew r, w', R0) | None => None end) with
    | Some (o, (u', d), R1) => Some (o, u', mkNreader (nr_line R1) d C126_cfg) | None => None end) E') as E2.
  cbv beta iota in E2. pose proof (eq_trans (eq_sym E) E2) as Q. discriminate Q.
Qed.
Print Assumptions C126_applies_refuted.
