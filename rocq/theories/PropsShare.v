(** Property theorems C127-C129: slices of the line buffer.
    Specification: SpecShare.v.  Proofs: LineShareFacts.v, LineShareCalls.v, AdcShareFacts.v.

    [grow] is an arbitrary behaviour of append when it allocates. *)
From Verif Require Import Base BaseFacts LineReader LineShare SpecShare LineShareFacts LineShareCalls.
From Verif Require Import NmdcText NmdcMessage NmdcReader SpecReader NmdcReaderCalls AdcMessage AdcPacket AdcPacketFacts AdcShare AdcShareFacts.

(** ** C127: lines *)

(** Reusing one buffer for all lines is not visible: ReadLine gives the line that a reader of
    values gives, as the hooks left it, and each hook gets what the hooks before it left. *)
Theorem C127_line {W Z} (act : Z -> zaction Z) grow (R : sreader (W:=W) (zstate:=Z)) (P : reader (W * bytes) Z) h m cap fuel w x :
  buffer m R cap -> stands_for (sr_hooks R) h -> same_but_hooks (sr_rd R) P -> rd_hooks P = [h] ->
  match share_read_line act grow fuel w m R, read_line act fuel (w, x) P with
  | None, None => True
  | Some (so, w1, m1, R1), Some (lo, (w2, x2), P1) =>
      w1 = w2 /\ same_but_hooks (sr_rd R1) P1 /\ rd_hooks P1 = [h] /\ sr_hooks R1 = sr_hooks R /\
      (exists cap1, cap <= cap1 /\ buffer m1 R1 cap1) /\
      shows m1 so (left_by_hooks x2 lo) /\ (forall s, so = SLine s -> s = sr_line R1)
  | _, _ => False
  end.
Proof.
  intros Bf ST SB HP. rewrite (same_rehook _ _ SB), HP.
  pose proof (read_agrees act grow h R ST m cap fuel w x Bf) as G.
  destruct (share_read_line act grow fuel w m R) as [[[[so w1] m1] R1]|];
    destruct (read_line act fuel (w, x) (rehook [h] (sr_rd R))) as [[[lo [w2 x2]] P1]|]; auto.
  destruct G as (G1 & -> & G3 & G4 & G5 & G6 & G7). split; [exact G1|]. split; [apply rehook_same|]. split; [reflexivity|].
  split; [exact G3|]. split; [|split; [exact G6|exact G7]].
  exists (length (array m1 (sl_arr (sr_line R1)))). split; [|now apply fits_buffer].
  destruct (buffer_fits _ _ _ Bf) as (_ & <-). apply G5.
Qed.
Print Assumptions C127_line.

(** For every list of hooks there is such a hook of values. *)
Theorem C127_hooks {W} (hs : list (whook W)) : exists h, stands_for hs h.
Proof. exists (fun p l => as_hook hs (fst p, l)). apply as_hook_stands. Qed.
Print Assumptions C127_hooks.

(** Hooks that do not write: the reader of values itself. *)
Theorem C127_watching {W Z} (act : Z -> zaction Z) grow (R : sreader (W:=W) (zstate:=Z)) (P : reader W Z) m cap fuel w :
  buffer m R cap -> sr_hooks R = map watching (rd_hooks P) -> same_but_hooks (sr_rd R) P ->
  match share_read_line act grow fuel w m R, read_line act fuel w P with
  | None, None => True
  | Some (so, w1, m1, R1), Some (lo, w2, P1) =>
      w1 = w2 /\ same_but_hooks (sr_rd R1) P1 /\ rd_hooks P1 = rd_hooks P /\ shows m1 so lo
  | _, _ => False
  end.
Proof.
  intros Bf HS SB. rewrite (same_rehook _ _ SB). cbn [rd_hooks rehook].
  pose proof (read_agrees act grow _ R (as_hook_stands (sr_hooks R)) m cap fuel w [] Bf) as G. rewrite HS in G.
  pose proof (read_watching act (rd_hooks P) fuel w [] (sr_rd R)) as G'.
  destruct (share_read_line act grow fuel w m R) as [[[[so w1] m1] R1]|];
    destruct (read_line act fuel (w, []) _) as [[[lo [w2 x2]] P1]|];
    destruct (read_line act fuel w (rehook (rd_hooks P) (sr_rd R))) as [[[lo' w3] P2]|]; try contradiction; auto.
  destruct G as (-> & -> & _ & _ & _ & G6 & _). destruct G' as (-> & (S1 & S2 & S3 & S4 & S5 & S6 & S7 & S8 & S9) & H & <-).
  split; [reflexivity|]. split; [|split; [exact H|exact G6]]. repeat split; auto.
Qed.
Print Assumptions C127_watching.

(** A line stays until the next ReadLine, whatever else is called; and what is not in the line
    buffer (an earlier, smaller one) stays for good. *)
Theorem C127_kept {W Z} (act : Z -> zaction Z) zinit grow (R : sreader (W:=W) (zstate:=Z)) m cap fuel os w w1 m1 R1 k l :
  buffer m R cap -> share_calls act zinit grow fuel os w m R = Some (w1, m1, R1) -> holds m k l ->
  ~ In OpLine os \/ sl_arr k <> sl_arr (sr_line R) -> holds m1 k l.
Proof.
  intros Bf E H D. destruct (buffer_fits _ _ _ Bf) as (F & _).
  destruct (calls_frame act zinit grow _ _ _ _ _ _ _ _ F E) as (_ & FR & N).
  destruct D as [D|D]; [rewrite (N D); exact H|eapply holds_frame; eauto].
Qed.
Print Assumptions C127_kept.

(** The next line [l] is written over whatever was kept of the line buffer: all of [l] if the
    buffer is large enough, else what was read before the buffer was replaced. *)
Theorem C127_next {W Z} (act : Z -> zaction Z) grow (R : sreader (W:=W) (zstate:=Z)) m cap fuel w out w1 m1 R1 k was :
  buffer m R cap -> sr_hooks R = [] -> rd_open (sr_rd R) = true -> share_read_line act grow fuel w m R = Some (out, w1, m1, R1) ->
  sl_arr k = sl_arr (sr_line R) -> holds m k was ->
  exists l n now, holds m1 (sr_line R1) l /\ n <= length l /\ (length l <= cap -> n = length l) /\
    holds m1 k now /\ overwritten n (sl_off k) l was now.
Proof. exact (next_line act grow m R cap fuel w out w1 m1 R1 k was). Qed.
Print Assumptions C127_next.

(** A reader over one chunk of data. *)
Definition share_of (d : string) : list bytes * sreader (W:=unit) (zstate:=unit) :=
  new_sreader [] [RD (B d) None] "|"%byte.
(** Nothing is compressed in the examples. *)
Definition no_zlib (_ : unit) : zaction unit := ZFail EEOF.
(** The first line of a reader of [share_of], and it after the next ReadLine. *)
Definition first_two (grow : nat -> nat -> nat) (d : string) : option (bytes * bytes * bytes) :=
  let (m, R) := share_of d in
  match share_read_line no_zlib grow 9 tt m R with
  | Some (SLine s, _, m1, R1) =>
      match share_read_line no_zlib grow 9 tt m1 R1 with
      | Some (SLine s2, _, m2, _) => Some (view m1 s, view m2 s2, view m2 s)
      | _ => None
      end
  | _ => None
  end.

(** That a line stays after the next ReadLine is false: "hello|" has become "bye|o|". *)
Theorem C127_stays_refuted grow :
  ~ (forall (R : sreader (W:=unit) (zstate:=unit)) m cap fuel o w1 m1 R1 k l,
      buffer m R cap -> share_read_line no_zlib grow fuel tt m R = Some (o, w1, m1, R1) -> holds m k l -> holds m1 k l).
Proof.
  intros H.
  destruct (share_of "hello|bye|") as [m R] eqn:E.
  assert (B0 : buffer m R read_buf).
  { unfold share_of, new_sreader in E. inversion E; subst. repeat split; auto. exists (repeat x00 read_buf). split; [reflexivity|apply repeat_length]. }
  destruct (share_read_line no_zlib grow 9 tt m R) as [[[[o w1] m1] R1]|] eqn:E1; [|unfold share_of, new_sreader in E; inversion E; subst; vm_compute in E1; discriminate].
  assert (F1 : fits m1 (sr_line R1)) by (destruct (buffer_fits _ _ _ B0) as (F & _); exact (proj1 (read_frame _ _ _ _ _ _ _ _ _ _ F E1))).
  destruct (share_read_line no_zlib grow 9 tt m1 R1) as [[[[o2 w2] m2] R2]|] eqn:E2.
  2: { unfold share_of, new_sreader in E; inversion E; subst. vm_compute in E1. inversion E1; subst. vm_compute in E2. discriminate. }
  pose proof (H R1 m1 _ 9 o2 w2 m2 R2 (sr_line R1) _ (fits_buffer _ _ F1) E2 (holds_view _ _ (fits_within _ _ F1))) as K.
  apply holds_is_view in K. unfold share_of, new_sreader in E. inversion E; subst. vm_compute in E1. inversion E1; subst. vm_compute in E2. inversion E2; subst.
  vm_compute in K. discriminate.
Qed.
Print Assumptions C127_stays_refuted.

Example C127_case : forall grow, first_two grow "hello|bye|" = Some (B "hello|", B "bye|", B "bye|o|").
Proof. intros. vm_compute. reflexivity. Qed.

(** A hook that writes: the next hook and the caller get what it left, cut to the length of the line. *)
Example C127_writing : forall grow,
  let shout (w : list bytes) (l : bytes) := ((w ++ [l], B "HE"), HPass) in
  let (m, R) := new_sreader (W:=list bytes) (zstate:=unit) [] [RD (B "hel") None; RD (B "lo|") None] "|"%byte in
  match share_read_line no_zlib grow 9 [] m (mkSreader (sr_rd R) (sr_line R) [shout; fun w l => ((w ++ [l], l ++ B "!"), HPass)]) with
  | Some (SLine s, w, m1, _) => w = [B "hello|"; B "HEllo|"] /\ view m1 s = B "HEllo|"
  | _ => False
  end.
Proof. intros. vm_compute. split; reflexivity. Qed.

(** ** C128: what an ErrUnexpectedCommand of the NMDC reader refers to *)

(** The arguments in the error are a part of the line in the line buffer. *)
Theorem C128_received {W Z} (act : Z -> zaction Z) grow (R : sreader (W:=W) (zstate:=Z)) (N : nreader W Z) m cap fuel w s w1 m1 R1 l t a x :
  buffer m R cap -> sr_hooks R = map watching (rd_hooks (nr_line N)) -> same_but_hooks (sr_rd R) (nr_line N) -> nc_raw (nr_cfg N) = [] ->
  share_read_line act grow fuel w m R = Some (SLine s, w1, m1, R1) -> holds m1 s l ->
  line_for (nc_max_cmd (nr_cfg N)) l t a -> msg_type x <> t ->
  (exists r1, read_msg_to act fuel x w N = Some (Err (EUnexpectedCmd (msg_type x) t a), x, w1, mkNreader r1 (nr_dec N) (nr_cfg N)) /\
    same_but_hooks (sr_rd R1) r1) /\
  holds m1 (received_slice s l) a /\ sl_arr (received_slice s l) = sl_arr (sr_line R1).
Proof.
  intros Bf HS SB NR E HL LF NT.
  pose proof (C127_watching act grow R (nr_line N) m cap fuel w Bf HS SB) as G. rewrite E in G.
  destruct (read_line act fuel w (nr_line N)) as [[[lo w2] r1]|] eqn:RL; [|contradiction].
  destruct G as (<- & SB1 & _ & SH). destruct lo as [l'| |]; try contradiction. cbn [shows] in SH.
  assert (l' = l) by (rewrite (holds_is_view _ _ _ SH), (holds_is_view _ _ _ HL); reflexivity). subst l'.
  split; [exists r1; split; [now apply (mismatch_to act fuel x w N l t a w1 r1)|exact SB1]|].
  split; [eapply received_holds; eauto|].
  pose proof (read_agrees act grow _ R (as_hook_stands (sr_hooks R)) m cap fuel w [] Bf) as G. rewrite E in G.
  destruct (read_line act fuel (w, []) _) as [[[lo [w3 x3]] P1]|]; [|contradiction].
  destruct G as (_ & _ & _ & _ & _ & _ & G). rewrite <- (G s eq_refl).
  unfold received_slice. destruct (removelast l) as [|b r]; [reflexivity|]. destruct (beq b "$"); [|reflexivity].
  destruct (index_byte " " r); reflexivity.
Qed.
Print Assumptions C128_received.

(** The next line is written over them. *)
Theorem C128_next {W Z} (act : Z -> zaction Z) grow (R : sreader (W:=W) (zstate:=Z)) m cap fuel w out w1 m1 R1 s l limit t a :
  buffer m R cap -> sr_hooks R = [] -> rd_open (sr_rd R) = true -> s = sr_line R -> holds m s l -> line_for limit l t a ->
  share_read_line act grow fuel w m R = Some (out, w1, m1, R1) ->
  exists l2 n now, holds m1 (sr_line R1) l2 /\ n <= length l2 /\ (length l2 <= cap -> n = length l2) /\
    holds m1 (received_slice s l) now /\ overwritten n (sl_off (received_slice s l)) l2 a now.
Proof.
  intros Bf NH OP -> HL LF E. eapply (next_line act grow m R cap fuel w out w1 m1 R1); eauto.
  - unfold received_slice. destruct (removelast l) as [|b r]; [reflexivity|]. destruct (beq b "$"); [|reflexivity].
    destruct (index_byte " " r); reflexivity.
  - eapply received_holds; eauto.
Qed.
Print Assumptions C128_next.

(** That the error keeps what was received is false: ReadMsgTo(&Quit{}) on "$Hello bob|" reports
    Received.Data "bob"; after "$Quit alice|" is read the same error has "lic". *)
Definition received_later (grow : nat -> nat -> nat) (d : string) : option (bytes * bytes) :=
  let (m, R) := share_of d in
  match share_read_line no_zlib grow 9 tt m R with
  | Some (SLine s, _, m1, R1) =>
      match share_read_line no_zlib grow 9 tt m1 R1 with
      | Some (SLine _, _, m2, _) => Some (view m1 (received_slice s (view m1 s)), view m2 (received_slice s (view m1 s)))
      | _ => None
      end
  | _ => None
  end.
Theorem C128_stays_refuted grow : received_later grow "$Hello bob|$Quit alice|" = Some (B "bob", B "lic").
Proof. vm_compute. reflexivity. Qed.
Print Assumptions C128_stays_refuted.

Example C128_case :
  (match read_msg_to no_zlib 9 (MName KQuit []) tt (new_nreader [RD (B "$Hello bob|$Quit alice|") None]) with
   | Some (e, _, _, _) => e = Err (EUnexpectedCmd (B "Quit") (B "Hello") (B "bob")) | None => False end) /\
  forall grow, received_later grow "<joe> hi all|$Quit alice|" = Some (B "<joe> hi all", B "$Quit alice|").
Proof. split; [vm_compute; reflexivity|]. intros. vm_compute. reflexivity. Qed.

(** ** C129: what ReadPacketRaw returns, and the capacity behind it *)

(** The payload is a part of the line in the line buffer. *)
Theorem C129_payload {W Z} (act : Z -> zaction Z) grow (R : sreader (W:=W) (zstate:=Z)) m cap fuel rl w p s w1 m1 R1 t d :
  buffer m R cap -> share_packet act grow fuel rl w m R = Some (Ok p, Some s, w1, m1, R1) -> message p = ARaw t d ->
  s = sr_line R1 /\ exists l, holds m1 s l /\ holds m1 (payload_slice s l d) d.
Proof.
  intros Bf E M. destruct (buffer_fits _ _ _ Bf) as (F & _).
  destruct (packet_from act grow _ _ _ _ _ _ _ _ _ _ F E) as (A & F1 & X & _).
  split; [exact A|]. exists (view m1 s). split; [apply holds_view, fits_within, F1|].
  eapply payload_holds; [apply holds_view, fits_within, F1|symmetry; exact X|exact M].
Qed.
Print Assumptions C129_payload.

(** The next line is written over it. *)
Theorem C129_next {W Z} (act : Z -> zaction Z) grow (R : sreader (W:=W) (zstate:=Z)) m cap fuel w out w1 m1 R1 s l sp p t d :
  buffer m R cap -> sr_hooks R = [] -> rd_open (sr_rd R) = true -> s = sr_line R -> holds m s l ->
  decode_packet_raw sp l = Ok p -> message p = ARaw t d ->
  share_read_line act grow fuel w m R = Some (out, w1, m1, R1) ->
  exists l2 n now, holds m1 (sr_line R1) l2 /\ n <= length l2 /\ (length l2 <= cap -> n = length l2) /\
    holds m1 (payload_slice s l d) now /\ overwritten n (length l - 1 - length d) l2 d now.
Proof.
  intros Bf NH OP -> HL DE M E.
  replace (length l - 1 - length d) with (sl_off (payload_slice (sr_line R) l d)).
  - eapply (next_line act grow m R cap fuel w out w1 m1 R1); eauto. eapply payload_holds; eauto.
  - unfold payload_slice. cbn [sl_off]. destruct Bf as (-> & _). reflexivity.
Qed.
Print Assumptions C129_next.

(** A reader made by NewReader, after any calls, does not crash on packets of up to 2045 bytes:
    its line buffer leaves the capacity that C63 asks for. *)
Theorem C129_fitting {W Z} (act : Z -> zaction Z) zinit grow m0 c os f (w0 w : W) m (R : sreader (W:=W) (zstate:=Z)) fuel rl x s w1 m1 R1 :
  share_calls act zinit grow f os w0 (fst (new_sreader (W:=W) (zstate:=Z) m0 c x0a)) (snd (new_sreader m0 c x0a)) = Some (w, m, R) ->
  share_packet act grow fuel rl w m R = Some (x, Some s, w1, m1, R1) -> sl_len s <= 2045 -> x <> Panic.
Proof.
  intros E1 E2 L.
  assert (F0 : fits (fst (new_sreader (W:=W) (zstate:=Z) m0 c x0a)) (sr_line (snd (new_sreader (W:=W) (zstate:=Z) m0 c x0a))) /\
    length (array (fst (new_sreader (W:=W) (zstate:=Z) m0 c x0a)) (length m0)) = 2048).
  { unfold new_sreader. cbn [fst snd sr_line]. rewrite array_app_new, repeat_length. split; [|reflexivity].
    repeat split; cbn [sl_arr sl_len]; [rewrite app_length; cbn [length]; lia|rewrite array_app_new, repeat_length; lia]. }
  destruct F0 as (F0 & C0).
  destruct (calls_frame act zinit grow _ _ _ _ _ _ _ _ F0 E1) as (F & (_ & _ & _ & _ & FR) & _).
  destruct (packet_from act grow _ _ _ _ _ _ _ _ _ _ F E2) as (_ & F1 & -> & C1).
  cbn [snd new_sreader sr_line sl_arr] in FR. cbn [fst new_sreader] in C0.
  intros P. apply decode_panic in P. destruct P as (name & data & id & sep & y & b & r & _ & _ & _ & _ & _ & _ & _ & P).
  cbn [length] in P. unfold new_sreader in FR. cbn [fst] in FR. lia.
Qed.
Print Assumptions C129_fitting.

(** That reading never crashes is false: whatever append does, a feature packet of exactly 2048
    bytes that ends in a cut selector panics in a new reader. *)
Definition long_packet : bytes := B "FSCH AAAB" ++ repeat " "%byte (2048 - 11) ++ B "+" ++ [x0a].
Theorem C129_crash_refuted grow :
  let (m, R) := new_sreader (W:=unit) (zstate:=unit) [] [RD long_packet None] x0a in
  match share_packet no_zlib grow 3 9 tt m R with Some (x, Some s, _, _, _) => x = Panic /\ sl_len s = 2048 | _ => False end.
Proof. vm_compute. split; reflexivity. Qed.
Print Assumptions C129_crash_refuted.

(** Two raw packets; the payload of the first after the second was read. *)
Example C129_case : forall grow,
  let (m, R) := new_sreader (W:=unit) (zstate:=unit) [] [RD (B "IMSG hello" ++ [x0a; x0a] ++ B "IQUI AAAB" ++ [x0a]) None] x0a in
  match share_packet no_zlib grow 9 9 tt m R with
  | Some (Ok (PInfo (ARaw t d)), Some s, _, m1, R1) =>
      t = B "MSG" /\ view m1 (payload_slice s (view m1 s) d) = B "hello" /\
      match share_packet no_zlib grow 9 9 tt m1 R1 with
      | Some (Ok p, Some _, _, m2, _) => p = PInfo (ARaw (B "QUI") (B "AAAB")) /\ view m2 (payload_slice s (view m1 s) d) = B "AAAB" ++ [x0a]
      | _ => False
      end
  | _ => False
  end.
Proof. intros. vm_compute. repeat split; reflexivity. Qed.
