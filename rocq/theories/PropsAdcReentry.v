(** Property C145: the ADC packet reader with callbacks and messages that use the line reader it embeds
    (adc/reader.go:18-101, lineproto/reader.go:125-280).
    Specification: SpecAdcReentry.v.  Proofs: AdcReentryFacts.v. *)
From Verif Require Import Base BaseFacts LineReader LineReentry SpecLine LineSession SpecSession SpecReentry LineReentryFacts.
From Verif Require Import AdcText AdcValue AdcMessage AdcPacket AdcReader SpecAdcReader SpecAdcStream Registry AdcForeign SpecAdcForeign AdcReentry SpecAdcReentry AdcReentryFacts.
From Coq Require Import Lia.

(** Whatever callbacks and messages do to the line reader: calls that return have done what is specified, each line being read
    by the line reader as it was left. *)
Theorem C145_calls {W V Z} (act : Z -> zaction Z) zinit decode keep f cs (s : fenv (W * @lreader (fenv W V) Z) V) os s' :
  a_calls act zinit decode keep f cs s = Some (os, s') ->
  exists h, SpecAdcForeign.serves decode (expects act zinit keep) s tt h s' tt /\ map fst h = cs /\ map snd h = os.
Proof. exact (a_calls_say act zinit decode keep f cs s os s'). Qed.
Print Assumptions C145_calls.

(** And what is specified happens, up to the texts of errors. *)
Theorem C145_happens {W V Z} (act : Z -> zaction Z) zinit decode keep (s : fenv (W * @lreader (fenv W V) Z) V) h s' :
  SpecAdcForeign.serves decode (expects act zinit keep) s tt h s' tt ->
  exists os, Forall2 alike (map snd h) os /\ SpecLine.eventually (fun f => a_calls act zinit decode keep f (map fst h) s = Some (os, s')).
Proof. exact (serves_a_calls act zinit decode keep s h s'). Qed.
Print Assumptions C145_happens.

(** Callbacks and messages that do not use the line reader: this is the reader of C142. *)
Theorem C145_plain {W V Z} (act : Z -> zaction Z) zinit decode keep f cs (s : fenv W V) (r : reader (fenv W V) Z) :
  a_calls act zinit (lift_decode decode) (lift_keep keep) f cs (beside (of_reader r) s) =
  match f_calls act decode f cs s (mkAreader r keep) with Some (os, s', R') => Some (os, beside (of_reader (ar_line R')) s') | None => None end.
Proof. exact (plain_a_calls act zinit decode keep f cs s r). Qed.
Print Assumptions C145_plain.

(** A program with a line callback that calls EnableZlib when the line [zon] comes: the calls get the lines of the plain and of the
    compressed sections in their order, an error for [zon] inside of a section, and io.EOF at the end. *)
Theorem C145_zon {W V Z} (act : Z -> zaction Z) zinit decode keep maxline zon sc os rest cs (s : fenv W V) :
  Forall solid sc -> SpecReentry.carries act zinit x0a maxline zon (Plain (script_data sc)) os rest ->
  exists h s' os' L', SpecAdcForeign.serves decode (gets_out keep) s os h s' os' /\ map fst h = cs /\
    SpecLine.eventually (fun f => a_calls act zinit (lift_decode decode) (lift_keep keep) f cs (beside (mkLreader [zon_hook zon] (limited maxline [] sc x0a)) s) = Some (map snd h, beside L' s')).
Proof.
  intros SO CA. destruct (on_calls act zinit decode keep maxline zon cs os s (mkLreader [zon_hook zon] (limited maxline [] sc x0a))) as (h & s' & os' & L' & SV & F & _ & EV).
  - exists (Plain (script_data sc)), rest. split; [exact CA|]. split; [reflexivity|]. split; [reflexivity|]. split; [now apply limited_serves|]. split; reflexivity.
  - exists h, s', os', L'. auto.
Qed.
Print Assumptions C145_zon.

(** The same from any state of the line reader, also inside of a compressed section. *)
Theorem C145_zon_anywhere {W V Z} (act : Z -> zaction Z) zinit decode keep zon t os rest cs (s : fenv W V) (r : reader unit Z) :
  SpecSession.serves act zinit r t -> rd_hooks r = [] -> rd_delim r = x0a -> SpecReentry.carries act zinit x0a (rd_max r) zon t os rest ->
  exists h s' os' L', SpecAdcForeign.serves decode (gets_out keep) s os h s' os' /\ map fst h = cs /\
    SpecLine.eventually (fun f => a_calls act zinit (lift_decode decode) (lift_keep keep) f cs (beside (mkLreader [zon_hook zon] r) s) = Some (map snd h, beside L' s')).
Proof.
  intros SV BA DE CA. destruct (on_calls act zinit decode keep (rd_max r) zon cs os s (mkLreader [zon_hook zon] r)) as (h & s' & os' & L' & SE & F & _ & EV).
  - exists t, rest. split; [exact CA|]. split; [exact BA|]. split; [reflexivity|]. split; [exact SV|]. split; [exact DE|reflexivity].
  - exists h, s', os', L'. auto.
Qed.
Print Assumptions C145_zon_anywhere.

(** OnKeepAlive may close the reader: the call in which it does so returns the error of a closed reader. *)
Theorem C145_close {W V Z} (act : Z -> zaction Z) zinit decode k c (s s1 s2 : fenv (W * @lreader (fenv W V) Z) V) :
  reads c -> takes act zinit s (LLine [x0a]) s1 -> k s1 = (s2, None) -> rd_open (lr_rest (snd (fst s2))) = false ->
  exists s3, fst (fst s3) = fst (fst s2) /\ snd s3 = snd s2 /\ rd_open (lr_rest (snd (fst s3))) = false /\
    SpecLine.eventually (fun f => a_call act zinit decode (Some k) f c s = Some (refuses c err_closed, s3)).
Proof.
  intros RD T K O. destruct s2 as [[w2 [hs r]] m2]. cbn [fst snd lr_rest] in *. exists ((w2, same_reader (mkLreader hs r)), m2). cbn [fst snd]. split; [reflexivity|]. split; [reflexivity|].
  split; [destruct r; exact O|]. apply takes_a_line in T as [f1 T]. exists (S (S f1)). intros f G. rewrite (a_call_shape _ _ decode (Some k) f c s RD). destruct f as [|f]; [lia|].
  cbn [a_next]. rewrite T by lia. cbn [ends_line last negb length Nat.ltb Nat.leb]. rewrite K. destruct f as [|f]; [lia|]. cbn [a_next a_line lr_hooks lr_rest]. unfold re_read_line. cbn [lr_rest rd_open]. rewrite O.
  destruct r. cbn in O. subst rd_open. destruct c; [reflexivity..|contradiction].
Qed.
Print Assumptions C145_close.

(** For the examples: an inflater for one length byte and that many stored bytes. *)
Inductive C145_state := XStart | XLen (n : nat) | XBody (n : nat) | XDone (d : bytes).
(** The inflater. *)
Definition C145_act (z : C145_state) : zaction C145_state :=
  match z with
  | XStart => ZByte (fun b => XLen (N.to_nat (b2n b)))
  | XLen n => ZReady (XBody n)
  | XBody n => ZFull n XDone
  | XDone d => ZLast d
  end.
(** The types of the package. *)
Definition C145_types : type_map amsg := fst (register_all adc_init []).
(** Unmarshal without floating point numbers. *)
Definition C145_decode (t : gotype amsg) (d : bytes) (v : amsg) (s : fenv nat amsg) : fenv nat amsg * res amsg := (s, unmarshal (fun _ => FErr) d v).
(** A callback that counts keep-alives. *)
Definition C145_keep (s : fenv nat amsg) : fenv nat amsg * option error := ((S (fst s), snd s), None).
(** A hub that switches on compression twice; the first section ends inside of a packet, the second contains IZON. *)
Definition C145_script : script :=
  [RD (B "IPIN a" ++ [x0a] ++ B "IZON" ++ [x0a; x09] ++ [x0a] ++ B "IABC x" ++ [x0a] ++ B "I") None; RD (B "DE") None;
   RD (B "F y" ++ [x0a] ++ B "IZON" ++ [x0a; x0b] ++ B "IZON" ++ [x0a] ++ B "IEND " ++ [x0a]) None].
(** The names and payloads of the packets that were read. *)
Definition C145_seen (a : fanswer amsg) : option (bytes * bytes) + option error :=
  match a with
  | FAPacket (Ok p) => inl (match message (fp_packet p) with ARaw n d => Some (n, d) | _ => None end)
  | FAPacket (Err e) => inr (Some e)
  | _ => inr None
  end.
Example C145_case :
  match a_calls C145_act XStart (lift_decode C145_decode) (lift_keep (Some C145_keep)) 60 (repeat (FPacket 9) 6)
    (beside (mkLreader [zon_hook (B "IZON" ++ [x0a])] (limited 0 [] C145_script x0a)) (0, C145_types)) with
  | Some (os, s) => (map C145_seen os, fst (fst s)) = ([inl (Some (B "PIN", B "a")); inl (Some (B "ABC", B "x")); inl (Some (B "DEF", B "y")); inr (Some err_zlib_active); inl (Some (B "END", [])); inr (Some EEOF)], 1)
  | None => False
  end.
Proof. vm_compute. reflexivity. Qed.
(** The hypotheses of C145_zon hold for it. *)
Example C145_hypotheses : Forall solid C145_script /\ SpecReentry.carries C145_act XStart x0a 0 (B "IZON" ++ [x0a]) (Plain (script_data C145_script))
  [LLine (B "IPIN a" ++ [x0a]); LLine [x0a]; LLine (B "IABC x" ++ [x0a]); LLine (B "IDEF y" ++ [x0a]); LErr None err_zlib_active; LLine (B "IEND " ++ [x0a])] [].
Proof.
  assert (IL : forall l, contains_byte x0a l = false -> is_line x0a (l ++ [x0a])) by (intros l Hl; exists l; split; [reflexivity|now apply contains_byte_false]).
  assert (LN : forall l t u os, contains_byte x0a l = false -> SpecSession.contents t = (l ++ [x0a]) ++ u -> bytes_eqb l (B "IZON") = false ->
    SpecReentry.carries C145_act XStart x0a 0 (B "IZON" ++ [x0a]) (after (length (l ++ [x0a])) t) os [] -> SpecReentry.carries C145_act XStart x0a 0 (B "IZON" ++ [x0a]) t (LLine (l ++ [x0a]) :: os) []).
  { intros l t u os Hl C N TE. eapply ca_line; [exact C|now apply IL|left; lia| |exact TE]. intro E. apply app_inj_tail in E as [-> _]. discriminate N. }
  assert (INF : forall b x, N.to_nat (b2n b) = length x -> inflates C145_act XStart (b :: x) x).
  { intros b x L. eapply inf_byte; [reflexivity|]. eapply inf_ready; [reflexivity|]. rewrite <- (app_nil_r x) at 1. eapply inf_full; [reflexivity|now rewrite L|]. now apply inf_last. }
  split; [repeat constructor; discriminate|].
  eapply (LN (B "IPIN a")); [reflexivity|vm_compute; reflexivity|reflexivity|].
  eapply (ca_zon _ _ _ _ _ _ _ (x09 :: [x0a] ++ B "IABC x" ++ [x0a] ++ B "I") ([x0a] ++ B "IABC x" ++ [x0a] ++ B "I") (B "DEF y" ++ [x0a] ++ B "IZON" ++ [x0a; x0b] ++ B "IZON" ++ [x0a] ++ B "IEND " ++ [x0a]));
    [vm_compute; reflexivity|apply (IL (B "IZON")); reflexivity|left; lia|vm_compute; reflexivity|now apply INF|].
  eapply (LN []); [reflexivity|vm_compute; reflexivity|reflexivity|].
  eapply (LN (B "IABC x")); [reflexivity|vm_compute; reflexivity|reflexivity|].
  eapply (LN (B "IDEF y")); [reflexivity|vm_compute; reflexivity|reflexivity|].
  eapply (ca_zon _ _ _ _ _ _ _ (x0b :: B "IZON" ++ [x0a] ++ B "IEND " ++ [x0a]) (B "IZON" ++ [x0a] ++ B "IEND " ++ [x0a]) []);
    [vm_compute; reflexivity|apply (IL (B "IZON")); reflexivity|left; lia|vm_compute; reflexivity|now apply INF|].
  eapply (ca_twice _ _ _ _ _ _ _ (B "IEND " ++ [x0a]) []);
    [vm_compute; reflexivity|apply (IL (B "IZON")); reflexivity|left; lia|vm_compute; reflexivity|discriminate|].
  eapply (LN (B "IEND ")); [reflexivity|vm_compute; reflexivity|reflexivity|].
  match goal with |- SpecReentry.carries _ _ _ _ _ ?t _ _ => apply (ca_end _ _ _ _ _ t) end; [|left; lia]. now intros [].
Qed.
(** Also other programs: Unmarshal of a message that calls EnableZlib, and an OnKeepAlive that closes the reader. *)
Definition C145_zip (t : gotype unit) (d : bytes) (v : unit) (s : fenv (unit * @lreader (fenv unit unit) C145_state) unit) : fenv (unit * @lreader (fenv unit unit) C145_state) unit * res unit :=
  let '((w, L), m) := s in
  match enable_zlib C145_act XStart 50 (lr_rest L) with
  | Some (ROk _, r) => (((w, mkLreader (lr_hooks L) r), m), Ok tt)
  | _ => (s, Err (EText "no zlib"))
  end.
Definition C145_off (s : fenv (unit * @lreader (fenv unit unit) C145_state) unit) : fenv (unit * @lreader (fenv unit unit) C145_state) unit * option error :=
  let '((w, L), m) := s in (((w, mkLreader [] (close_reader (lr_rest L))), m), None).
Example C145_other_case :
  match a_calls C145_act XStart C145_zip (Some C145_off) 60 [FPacketRaw 9; FRegister (mkGo (fun _ => B "ZON") tt false) tt; FInfo 9; FPacket 9; FPacket 9; FPacket 9]
    ((tt, mkLreader [] (limited 0 [] [RD (B "IZON" ++ [x0a] ++ B "IZON" ++ [x0a; x07] ++ B "IABC x" ++ [x0a] ++ B "IDEF" ++ [x0a; x0a] ++ B "IGHI" ++ [x0a]) None] x0a)), []) with
  | Some (os, _) => os = [FAPacket (Ok (mkFp (PInfo (ARaw (B "ZON") [])) None)); FADone false; FAMessage (Ok (inr tt)); FAPacket (Ok (mkFp (PInfo (ARaw (B "ABC") (B "x"))) None));
      FAPacket (Ok (mkFp (PInfo (ARaw (B "DEF") [])) None)); FAPacket (Err err_closed)]
  | None => False
  end.
Proof. vm_compute. reflexivity. Qed.
