(** Property C119: message and packet calls across compressed sections and binary transfers, with line callbacks. *)
From Verif Require Import Base BaseFacts LineReader SpecLine SpecSession LineSession NmdcText NmdcChat NmdcMessage NmdcReader SpecReader SpecReuse SpecCalls.
From Verif Require Import AdcValue AdcMessage AdcPacket SpecAdc AdcReader SpecAdcReader SpecAdcStream SpecAcross AcrossFacts.

(** Every call of the NMDC reader on a line reader that serves a stream with lines ahead. *)
Theorem C119_nmdc {W Z} (act : Z -> zaction Z) zinit cfg k ls (w : W) dec r t rest :
  serves act zinit r t -> lines_ahead r t ls rest -> rd_delim r = "|"%byte -> call_sized k -> k <> CAny [] -> typed cfg ->
  exists v s left o r', nmdc_call (rd_hooks r) cfg (mkAt w dec dec (call_target k)) ls v s left /\ SpecCalls.answers k v (al_target s) o /\
    keeps r r' /\ goes_on act zinit r' t ls left /\
    eventually (fun f => do_call act f k w (mkNreader r dec cfg) = Some (o, al_w s, mkNreader r' (al_kept s) cfg)).
Proof. intros H1 H2 H3 H4 H5 TY. exact (nmdc_across act zinit cfg TY k ls w dec r t rest H1 H2 H3 H4 H5). Qed.
Print Assumptions C119_nmdc.

(** Every call of the ADC reader. *)
Theorem C119_adc {W Z} (act : Z -> zaction Z) zinit pf keep k ls (w : W) r t rest :
  serves act zinit r t -> lines_ahead r t ls rest -> rd_delim r = x0a ->
  exists a w' left r', adc_call (rd_hooks r) pf keep k w ls a w' left /\ keeps r r' /\ goes_on act zinit r' t ls left /\
    eventually (fun f => run_rcall act pf f k w (mkAreader r keep) = Some (a, w', mkAreader r' keep)).
Proof. exact (adc_across act zinit pf keep k ls w r t rest). Qed.
Print Assumptions C119_adc.

(** For the examples: an inflater for one length byte and that many stored bytes. *)
Inductive C119_state := ZStart | ZLen (n : nat) | ZBody (n : nat) | ZDone (d : bytes).
(** The inflater. *)
Definition C119_act (z : C119_state) : zaction C119_state :=
  match z with
  | ZStart => ZByte (fun b => ZLen (N.to_nat (b2n b)))
  | ZLen n => ZReady (ZBody n)
  | ZBody n => ZFull n ZDone
  | ZDone d => ZLast d
  end.
(** A line callback that counts lines, drops those that start with a number sign and stops at an exclamation mark. *)
Definition C119_hook (n : nat) (l : bytes) : nat * hook_res :=
  (S n, match l with b :: _ => if beq b "#" then HDrop else if beq b "!" then HErr (EText "stopped") else HPass | [] => HPass end).
(** A connection: a message, compression from there on that ends inside of a line, a binary transfer, more lines. *)
Definition C119_script : script :=
  [RD (B "$ZOn|" ++ [x10] ++ B "#x|$Hello") None; RD (B " a|$Hel") None; RD (B "lo b|12345!|#|$Hello c|rest") None].
(** Reads until the reader of a call, its answer and the number of lines heard. *)
Definition C119_call (n : nat) (R : nreader nat C119_state) := do_call C119_act 50 CNew n R.
(** The session: messages, compression switched on after the first one, five bytes of binary data in the middle. *)
Definition C119_run : option (list SpecCalls.answer * bytes * nat) :=
  let R0 := mkNreader (limited 32 [C119_hook] C119_script "|"%byte) None (mkNcfg 32 None [] None None []) in
  match C119_call 0 R0 with
  | Some (a1, n, R) =>
    match enable_zlib C119_act ZStart 50 (nr_line R) with
    | Some (ROk tt, r) =>
      match C119_call n (mkNreader r (nr_dec R) (nr_cfg R)) with
      | Some (a2, n, R) =>
        match C119_call n R with
        | Some (a3, n, R) =>
          match binary_read C119_act 50 5 5 (nr_line R) with
          | Some (ROk (d, None), _, r) =>
            match C119_call n (mkNreader r (nr_dec R) (nr_cfg R)) with
            | Some (a4, n, R) =>
              match C119_call n R with
              | Some (a5, n, R) =>
                match C119_call n R with
                | Some (a6, n, R) => Some ([a1; a2; a3; a4; a5; a6], d, n)
                | None => None
                end
              | None => None
              end
            | None => None
            end
          | _ => None
          end
        | None => None
        end
      | None => None
      end
    | _ => None
    end
  | None => None
  end.
Example C119_nmdc_case : C119_run = Some
  ([RNew (Ok (Some (MNoArgs KZOn))); RNew (Ok (Some (MName KHello (B "a")))); RNew (Ok (Some (MName KHello (B "b"))));
    RNew (Err (EText "stopped")); RNew (Ok (Some (MName KHello (B "c")))); RNew (Err EEOF)], B "12345", 7).
Proof. vm_compute. reflexivity. Qed.
(** The hypotheses hold inside of the compressed section. *)
Example C119_hypotheses : exists r, serves (W:=nat) C119_act ZStart r (Zip (B "#x|$Hello a|$Hel") (B "lo b|12345!|#|$Hello c|rest")) /\
  lines_ahead r (Zip (B "#x|$Hello a|$Hel") (B "lo b|12345!|#|$Hello c|rest")) [B "#x|"; B "$Hello a|"; B "$Hello b|"; B "12345!|"; B "#|"; B "$Hello c|"] (B "rest") /\
  rd_delim r = "|"%byte /\ rd_hooks r = [C119_hook].
Proof.
  pose proof (serves_session (W:=nat) C119_act ZStart) as SS.
  assert (S0 : serves C119_act ZStart (limited 32 [C119_hook] C119_script "|"%byte) (Plain (script_data C119_script))).
  { apply limited_serves. repeat constructor; discriminate. }
  destruct (se_line _ _ _ SS _ _ (B "$ZOn|") (skipn 5 (script_data C119_script)) 0 1 HPass S0) as (r1 & S1 & (K1 & K2 & K3 & K4) & _).
  { reflexivity. } { exists (B "$ZOn"). split; [reflexivity|]. apply contains_byte_false. reflexivity. } { right. vm_compute. discriminate. }
  { eapply v_pass; [reflexivity|constructor]. }
  change (after (length (B "$ZOn|")) (Plain (script_data C119_script))) with (Plain ((x10 :: B "#x|$Hello a|$Hel") ++ B "lo b|12345!|#|$Hello c|rest")) in S1.
  destruct (se_zlib _ _ _ SS r1 (x10 :: B "#x|$Hello a|$Hel") (B "#x|$Hello a|$Hel") (B "lo b|12345!|#|$Hello c|rest") S1) as (r2 & S2 & (L1 & L2 & L3 & L4) & _).
  { eapply inf_byte; [reflexivity|]. eapply inf_ready; [reflexivity|]. change (B "#x|$Hello a|$Hel") with (B "#x|$Hello a|$Hel" ++ []) at 1.
    eapply inf_full; [reflexivity|reflexivity|]. now apply inf_last. }
  exists r2. split; [exact S2|]. rewrite L1, L4, K1, K4. split; [|now split]. unfold lines_ahead. rewrite L1, L2, K1, K2. split; [reflexivity|].
  split; [repeat (apply Forall_cons; [match goal with |- is_line _ ?l => exists (removelast l); split; [vm_compute; reflexivity|apply contains_byte_false; vm_compute; reflexivity] end|]); constructor|].
  split; [apply contains_byte_false; reflexivity|]. split; [|right; vm_compute; discriminate].
  repeat (apply Forall_cons; [right; vm_compute; discriminate|]). constructor.
Qed.
(** The same for ADC: ReadInfo, compression, ReadPacket of a line that ends behind the compressed section, a keep-alive. *)
Definition C119_adc_run : option (list SpecAdcReader.answer * nat) :=
  match run_rcall C119_act (fun _ => FErr) 50 (CInfo 0) 0 (mkAreader (limited 64 [C119_hook] [RD (B "IZON" ++ [x0a; x0c] ++ B "#drop" ++ [x0a] ++ B "IMSG h") None; RD (B "i" ++ [x0a; x0a] ++ B "CSTA 000 ok" ++ [x0a]) None] x0a) None) with
  | Some (a1, n, R) =>
    match enable_zlib C119_act ZStart 50 (ar_line R) with
    | Some (ROk tt, r) =>
      match run_rcalls C119_act (fun _ => FErr) 50 [CPacket 0; CClient 0; CRaw 0] n (mkAreader r (ar_keep R)) with
      | Some (os, n, _) => Some (a1 :: os, n)
      | None => None
      end
    | _ => None
    end
  | None => None
  end.
Example C119_adc_case : C119_adc_run = Some
  ([AMessage (Ok AZon); APacket (Ok (PInfo (AStruct TChat (B "hi", (None, (false, (0%Z, tt))))))); AMessage (Ok (ASta {| st_sev := 0; st_code := 0; st_msg := B "ok" |})); APacket (Err EEOF)], 5).
Proof. vm_compute. reflexivity. Qed.
