(** Property C144: the NMDC message reader with callbacks and messages that use the line reader it embeds
    (nmdc/reader.go:104-329, lineproto/reader.go:125-280).
    Specification: SpecNmdcReentry.v.  Proofs: NmdcReentryFacts.v. *)
From Verif Require Import Base BaseFacts NmdcText NmdcChat NmdcMessage LineReader LineReentry SpecLine LineSession SpecSession SpecReentry.
From Verif Require Import NmdcReader SpecReader SpecStream SpecCalls NmdcProgram NmdcForeign SpecForeign NmdcReentry SpecNmdcReentry NmdcReentryFacts.

(** Whatever callbacks and messages do to the line reader: calls that return have done what is specified, each line being read
    by the line reader as it was left. *)
Theorem C144_calls {W A Z} (act : Z -> zaction Z) zinit (M : rmethods (W * @lreader (env W) Z) A) c f ks s os s' : lawful M ->
  n_calls act zinit M f c ks s = Some (os, s') ->
  exists h, n_reading act zinit M c s h s' /\ map (fun x => fst (fst x)) h = ks /\ map snd h = os.
Proof. intros L E. exact (n_calls_say act zinit M L c f ks s os s' E). Qed.
Print Assumptions C144_calls.

(** A program that calls EnableZlib in a callback for raw messages when $ZOn comes: ReadMsg gives the messages of the plain and of
    the compressed sections in their order, as if there were no callback, an error for $ZOn inside of a section, and io.EOF at the end. *)
Theorem C144_zon {W A Z} (act : Z -> zaction Z) zinit (M : rmethods (W * @lreader (env W) Z) A) limit maxline sc os dec (w : W) n :
  lawful M -> stateless M -> Forall solid sc -> tells act zinit maxline (Plain (script_data sc)) os ->
  exists rs s', heard M limit dec n os rs /\ exists z0, forall zf, z0 <= zf ->
    SpecLine.eventually (fun f => n_calls act zinit M f (mkFcfg limit None [zon_raw act zinit zf] None None []) (repeat FNew n)
      ((w, mkLreader [] (limited maxline [] sc "|"%byte)), dec) = Some (rs, s')).
Proof.
  intros L P SO TE. destruct (zon_calls act zinit M L limit P maxline dec w n _ os (limited maxline [] sc "|"%byte) TE) as (rs & r' & HE & z0 & E);
    [now apply limited_serves|reflexivity..|]. exists rs, ((w, mkLreader [] r'), dec). split; [exact HE|]. exists z0. exact E.
Qed.
Print Assumptions C144_zon.

(** The same from any state of the line reader, also inside of a compressed section. *)
Theorem C144_zon_anywhere {W A Z} (act : Z -> zaction Z) zinit (M : rmethods (W * @lreader (env W) Z) A) limit os dec (w : W) n t (r : reader unit Z) :
  lawful M -> stateless M -> serves act zinit r t -> rd_hooks r = [] -> rd_delim r = "|"%byte -> tells act zinit (rd_max r) t os ->
  exists rs s', heard M limit dec n os rs /\ exists z0, forall zf, z0 <= zf ->
    SpecLine.eventually (fun f => n_calls act zinit M f (mkFcfg limit None [zon_raw act zinit zf] None None []) (repeat FNew n) ((w, mkLreader [] r), dec) = Some (rs, s')).
Proof.
  intros L P SV BA DE TE. destruct (zon_calls act zinit M L limit P _ dec w n t os r TE SV BA DE eq_refl) as (rs & r' & HE & z0 & E).
  exists rs, ((w, mkLreader [] r'), dec). split; [exact HE|]. exists z0. exact E.
Qed.
Print Assumptions C144_zon_anywhere.

(** Callbacks and messages that do not use the line reader: this is the reader of C137. *)
Theorem C144_plain {W A Z} (act : Z -> zaction Z) zinit (N : rmethods W A) c f ks (s : env W) (r : reader (env W) Z) :
  n_calls act zinit (lift_methods N) f (lift_cfg c) ks (above (of_reader r) s) =
  match f_calls N act f c ks s r with Some (os, s', r') => Some (os, above (of_reader r') s') | None => None end.
Proof. exact (plain_n_calls act zinit N f c ks s r). Qed.
Print Assumptions C144_plain.

(** The messages of the package are such messages. *)
Theorem C144_package {W Z} : lawful (package_rmethods (W := W * @lreader (env W) Z)) /\ stateless (package_rmethods (W := W * @lreader (env W) Z)).
Proof.
  split; [intros m; now destruct m|]. intros m dec d. exists (fst (msg_unmarshal dec m d)), (snd (msg_unmarshal dec m d)). reflexivity.
Qed.
Print Assumptions C144_package.

(** For the examples: an inflater for one length byte and that many stored bytes. *)
Inductive C144_state := XStart | XLen (n : nat) | XBody (n : nat) | XDone (d : bytes).
(** The inflater. *)
Definition C144_act (z : C144_state) : zaction C144_state :=
  match z with
  | XStart => ZByte (fun b => XLen (N.to_nat (b2n b)))
  | XLen n => ZReady (XBody n)
  | XBody n => ZFull n XDone
  | XDone d => ZLast d
  end.
(** A hub that switches compression on twice, the first section ends inside of a message, the second contains $ZOn. *)
Definition C144_script : script :=
  [RD (B "$Hello a|$ZOn|" ++ [x0d] ++ B "$Hello b") None; RD (B "|$Hel") None; RD (B "lo c||$ZOn|" ++ [x0e] ++ B "$ZOn|$Hello d|") None].
(** The messages of the package. *)
Notation C144_M := (package_rmethods (W := unit * @lreader (env unit) C144_state)).
(** All messages arrive. *)
Example C144_case :
  match n_calls C144_act XStart C144_M 50 (mkFcfg 32 None [zon_raw C144_act XStart 50] None None []) (repeat FNew 6)
    ((tt, mkLreader [] (limited 0 [] C144_script "|"%byte)), None) with
  | Some (os, _) => os = [FRNew (Ok (Some (MName KHello (B "a")))); FRNew (Ok (Some (MName KHello (B "b")))); FRNew (Ok (Some (MName KHello (B "c"))));
      FRNew (Err err_zlib_active); FRNew (Ok (Some (MName KHello (B "d")))); FRNew (Err EEOF)]
  | None => False
  end.
Proof. vm_compute. reflexivity. Qed.
(** The hypotheses of C144_zon hold for it. *)
Example C144_hypotheses : Forall solid C144_script /\ tells C144_act XStart 0 (Plain (script_data C144_script))
  [LLine (B "$Hello a|"); LLine (B "$Hello b|"); LLine (B "$Hello c|"); LLine (B "|"); LErr None err_zlib_active; LLine (B "$Hello d|")].
Proof.
  assert (IL : forall l, contains_byte "|"%byte l = false -> is_line "|"%byte (l ++ B "|")) by (intros l Hl; exists l; split; [reflexivity|now apply contains_byte_false]).
  assert (NZ : forall l, match cut " "%byte l with Some (a, _) => a | None => l end <> B "$ZOn" -> ~ zon_line (l ++ B "|")).
  { intros l N (body & d & E & _ & P). apply app_inj_tail in E as [-> _]. inversion P as [|t Ht|t a Ht]; subst.
    - assert (K : ~ In " "%byte (B "$ZOn")) by (apply contains_byte_false; reflexivity). change ("$"%byte :: B "ZOn") with (B "$ZOn") in N. rewrite (proj2 (cut_none _ _) K) in N. now apply N.
    - change ("$"%byte :: B "ZOn" ++ " "%byte :: d) with (B "$ZOn" ++ " "%byte :: d) in N. rewrite cut_app in N by (apply contains_byte_false; reflexivity). now apply N. }
  assert (ZL : zon_line (B "$ZOn|")).
  { exists (B "$ZOn"), []. split; [reflexivity|]. split; [apply contains_byte_false; reflexivity|]. apply (pa_bare (B "ZOn")). apply contains_byte_false. reflexivity. }
  assert (LN : forall l t u os, contains_byte "|"%byte l = false -> contents t = (l ++ B "|") ++ u -> match cut " "%byte l with Some (a, _) => a | None => l end <> B "$ZOn" ->
    tells C144_act XStart 0 (after (length (l ++ B "|")) t) os -> tells C144_act XStart 0 t (LLine (l ++ B "|") :: os)).
  { intros l t u os Hl C N TE. eapply te_line; [exact C|now apply IL|left; lia|now apply NZ|exact TE]. }
  assert (INF : forall b x, N.to_nat (b2n b) = length x -> inflates C144_act XStart (b :: x) x).
  { intros b x L. eapply inf_byte; [reflexivity|]. eapply inf_ready; [reflexivity|]. rewrite <- (app_nil_r x) at 1. eapply inf_full; [reflexivity|now rewrite L|]. now apply inf_last. }
  split; [repeat constructor; discriminate|].
  eapply (LN (B "$Hello a")); [reflexivity|vm_compute; reflexivity|discriminate|].
  eapply (te_zon _ _ _ _ (B "$ZOn|") _ (x0d :: B "$Hello b|$Hel") (B "$Hello b|$Hel") (B "lo c||$ZOn|" ++ [x0e] ++ B "$ZOn|$Hello d|"));
    [vm_compute; reflexivity|apply (IL (B "$ZOn")); reflexivity|left; lia|exact ZL|vm_compute; reflexivity|now apply INF|].
  eapply (LN (B "$Hello b")); [reflexivity|vm_compute; reflexivity|discriminate|].
  eapply (LN (B "$Hello c")); [reflexivity|vm_compute; reflexivity|discriminate|].
  eapply (LN []); [reflexivity|vm_compute; reflexivity|discriminate|].
  eapply (te_zon _ _ _ _ (B "$ZOn|") _ (x0e :: B "$ZOn|$Hello d|") (B "$ZOn|$Hello d|") []);
    [vm_compute; reflexivity|apply (IL (B "$ZOn")); reflexivity|left; lia|exact ZL|vm_compute; reflexivity|now apply INF|].
  eapply (te_twice _ _ _ _ (B "$ZOn|") _ (B "$Hello d|") []);
    [vm_compute; reflexivity|apply (IL (B "$ZOn")); reflexivity|left; lia|exact ZL|vm_compute; reflexivity|discriminate|].
  eapply (LN (B "$Hello d")); [reflexivity|vm_compute; reflexivity|discriminate|].
  apply te_end; [|left; lia]. now intros [].
Qed.
(** Also other calls: UnmarshalNMDC of a message that reads the binary data behind it, in which the delimiter may occur. *)
Definition C144_bin : rmethods (unit * @lreader (env unit) C144_state) bytes :=
  mkRmethods (fun _ => B "Bin") (fun _ => KOther)
    (fun _ _ s d => let '((w, L), dec) := s in
      match reader_read C144_act 50 4 (lr_rest L) with
      | Some (ROk (x, None), r) => (((w, mkLreader (lr_hooks L) r), dec), x, Ok tt)
      | _ => (s, [], Err (EText "short"))
      end) (fun _ => []) [].
Example C144_bin_case :
  match n_calls C144_act XStart C144_bin 50 (mkFcfg 32 None [] None None []) [FNew; FInto []; FNew]
    ((tt, mkLreader [] (limited 0 [] [RD (B "$Bin|a|b|$Bin x|12") None; RD (B "$Bin|") None] "|"%byte)), None) with
  | Some (os, _) => os = [FRNew (Ok (Some (B "a|b|"))); FRInto (Ok tt) (B "12"); FRNew (Err (EText "short"))]
  | None => False
  end.
Proof. vm_compute. reflexivity. Qed.
(** A reader with callbacks that count and do not use the line reader. *)
Example C144_plain_case :
  match n_calls C144_act XStart (lift_methods package_rmethods) 30
    (lift_cfg (mkFcfg 32 (Some (fun s => ((S (fst s), snd s), None))) [fun s t _ => (s, match t with Some _ => HPass | None => HDrop end)] None None [fun p => (p, HPass)])) (repeat FNew 2)
    (above (of_reader (limited 0 [] [RD (B "|<a> b|$Hello x||") None] "|"%byte)) (0, None)) with
  | Some (os, s) => os = [FRNew (Ok (Some (MName KHello (B "x")))); FRNew (Err EEOF)] /\ below s = (2, None)
  | None => False
  end.
Proof. vm_compute. split; reflexivity. Qed.
