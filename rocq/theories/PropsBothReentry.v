(** Property C150: line callbacks and a Timeout callback that call the writer they belong to.  Specification: SpecBothReentry.v.  Proofs:
    BothFacts.v. *)
From Verif Require Import Base LineReader LineWriter SpecWriter WriterReentry SpecWriterReentry LineWriterFacts WriterReentryFacts TimeoutReentry SpecTimeoutReentry TimeoutReentryFacts TimeoutToldFacts BothReentry SpecBothReentry BothFacts.

(** Any callbacks and any method: what the program does is what the rules [bcalls] tell.  A call that returns or panics does what is told and
    nothing else; if nothing is told, it never returns. *)
Theorem C150_call {W dst} (dinit : Z -> dst) dstep (w : W) c t hs x o : wr_timeout x = false -> wr_hooks x = [] -> (wr_err x = None -> wr_open x = true) ->
  (bcalls dinit dstep w c (mkBo t hs x) o <->
   exists f, forall g, (f <= g)%nat -> b_call dinit dstep g w c (mkBo t hs x) = Some (match o with Some r => WRet r | None => WPan end)) /\
  (forall o', bcalls dinit dstep w c (mkBo t hs x) o -> bcalls dinit dstep w c (mkBo t hs x) o' -> o = o') /\
  (forall f r, b_call dinit dstep f w c (mkBo t hs x) = Some r -> exists o', bcalls dinit dstep w c (mkBo t hs x) o' /\ r = match o' with Some a => WRet a | None => WPan end).
Proof.
  intros Ht Hh Ho. assert (F : bfit (mkBo t hs x)) by (split; [split|]; auto). split; [exact (bcall_iff dinit dstep w c _ o F)|]. split; [intros o'; exact (bcall_one dinit dstep w c _ o o' F)|].
  intros f r E. destruct (bcall_told dinit dstep f w c _ r F E) as [S0 U]. exists (tell r). split; [exact U|]. destruct r; [reflexivity|reflexivity|destruct S0].
Qed.
Print Assumptions C150_call.
(** If the line callbacks call nothing, it is the writer of C149. *)
Theorem C150_plain {W dst} (dinit : Z -> dst) dstep f (w : W) c s :
  b_call dinit dstep f w c (widen s) =
  match t_call dinit dstep f w c s with
  | Some (WRet (a, w', s')) => Some (WRet (a, w', widen s'))
  | Some WPan => Some WPan
  | Some WStuck => Some WStuck
  | None => None
  end.
Proof. rewrite call_wide. destruct (t_call dinit dstep f w c s) as [[[[a w'] s']| |]|]; reflexivity. Qed.
Print Assumptions C150_plain.
(** Without a Timeout callback WriteLine is that of C146, and returns if that one does. *)
Theorem C150_lines {W dst} (dinit : Z -> dst) dstep (w0 w : W) d s : wr_timeout (lw_rest s) = false -> wr_hooks (lw_rest s) = [] -> (wr_err (lw_rest s) = None -> wr_open (lw_rest s) = true) ->
  (forall f e w' s', re_write dinit dstep f w d s = Some (WRet (e, w', s')) -> b_call dinit dstep (S f) w (CLine d) (untimed w0 s) = Some (WRet (O, e, w', untimed w0 s'))) /\
  (forall f, re_write dinit dstep f w d s = Some WPan -> b_call dinit dstep (S f) w (CLine d) (untimed w0 s) = Some WPan) /\
  (forall f, re_write dinit dstep f w d s = None -> b_call dinit dstep f w (CLine d) (untimed w0 s) = None).
Proof.
  intros Ht Hh Ho. assert (L : lone (lw_rest s)) by (split; [split|]; auto). split; [|split].
  - intros f e w' s' E. exact (line_un dinit dstep w0 f w d s _ L E).
  - intros f E. exact (line_un dinit dstep w0 f w d s _ L E).
  - intros f E. destruct (b_call dinit dstep f w (CLine d) (untimed w0 s)) as [r|] eqn:B; [|reflexivity]. destruct (line_back dinit dstep w0 f w d s r L B) as (q & A & _). congruence.
Qed.
Print Assumptions C150_lines.
(** An error that WriteLine or Flush returns is returned by Err, whatever the callbacks do. *)
Theorem C150_sticky {W dst} (dinit : Z -> dst) dstep f (w : W) c s n e w' s' : c = CFlush \/ (exists d, c = CLine d) ->
  b_call dinit dstep f w c s = Some (WRet (n, Some e, w', s')) -> wr_err (bo_rest s') = Some e.
Proof. intros H. apply bcall_sticky. destruct H as [-> | [d ->]]; exact Logic.I. Qed.
Print Assumptions C150_sticky.
(** A line callback that calls Flush first and a Timeout callback that writes a line when the timeout is set: neither Flush nor WriteLine
    returns, and they write nothing. *)
Theorem C150_recursion {W dst} (dinit : Z -> dst) dstep (t : W -> bool -> bprog W) (h : W -> bytes -> bprog W) g l k g' k' hs x f w :
  (forall w, t w true = BCall (g w) (CLine (l w)) (k w)) -> (forall w d, h w d = BCall (g' w d) CFlush (k' w d)) -> wr_err x = None ->
  b_call dinit dstep f w CFlush (mkBo (Some t) (h :: hs) x) = None /\ forall d, b_call dinit dstep f w (CLine d) (mkBo (Some t) (h :: hs) x) = None.
Proof.
  intros Ht Hh E. revert w. induction f as [|f IH]; intros w; [split; reflexivity|]. split; [|intros d]; cbn [b_call].
  - unfold b_flush. cbn [bo_rest]. rewrite E. unfold b_timed. cbn [bo_timeout]. rewrite Ht. cbn [run_bprog]. now rewrite (proj2 (IH (g w))).
  - unfold b_line. cbn [bo_rest bo_hooks]. rewrite E. cbn [run_bprogs]. rewrite Hh. cbn [run_bprog]. now rewrite (proj1 (IH (g' w d))).
Qed.
Print Assumptions C150_recursion.

(** A compressor that copies, and a new writer. *)
Definition bre_step (u : unit) (o : dop) : unit * list bytes := (u, match o with DWrite p => [p] | _ => [] end).
Definition bre_init (_ : Z) : unit := tt.
Definition bre_new : writer unit unit := new_writer [] 0.
(** What is written to the connection and what is in the buffer. *)
Definition bre_sent {W} (r : option (wout (nat * option error * W * @bowriter W unit))) :=
  match r with Some (WRet (a, w, s)) => Some (a, w, delivered (cn_trace (wr_conn (bo_rest s))), wr_buf (bo_rest s)) | _ => None end.
(** The state tells how deep the calls are.  The line callback writes a line before each line of the program, the Timeout callback flushes
    behind each line of the program: the lines are sent in order. *)
Definition bre_hook : nat -> bytes -> bprog nat := fun w d => match w with O => BCall 1%nat (CLine (B "pre|")) (fun _ _ => BReturn 0%nat HPass) | _ => BReturn w HPass end.
Definition bre_time : nat -> bool -> bprog nat := fun w on => match w, on with O, false => BCall 1%nat CFlush (fun _ _ => BReturn 0%nat HPass) | _, _ => BReturn w HPass end.
Example C150_call_case :
  bre_sent (b_call bre_init bre_step 5 0%nat (CLine (B "a|")) (mkBo (Some bre_time) [bre_hook] bre_new)) = Some ((0%nat, None), 0%nat, B "pre|a|", []) /\
  (** A line callback that adds another one, which is asked for the next line only, and drops this one. *)
  (exists s, b_call bre_init bre_step 5 0%nat (CLine (B "a|")) (mkBo None [fun (w : nat) (d : bytes) => BHook (fun (w : nat) (d : bytes) => BReturn w HDrop) (BReturn w HPass)] bre_new) = Some (WRet ((0%nat, None), 0%nat, s)) /\
     wr_buf (bo_rest s) = B "a|" /\ length (bo_hooks s) = 2%nat /\ bre_sent (b_call bre_init bre_step 5 0%nat (CLine (B "b|")) s) = Some ((0%nat, None), 0%nat, [], B "a|")) /\
  (** A line callback that sets Timeout: it is called for this line. *)
  (exists s, b_call bre_init bre_step 5 0%nat (CLine (B "a|")) (mkBo None [fun (w : nat) (d : bytes) => BSet (Some (fun (w : nat) (on : bool) => BMark on None (BReturn (S w) HDrop))) (BReturn w HPass)] bre_new) = Some (WRet ((0%nat, None), 2%nat, s)) /\
     cn_trace (wr_conn (bo_rest s)) = [EvTimeout true None; EvTimeout false None]) /\
  (** A Timeout callback that adds a line callback: it is not asked for this line.  One that closes the writer: panic. *)
  (exists s, b_call bre_init bre_step 5 0%nat (CLine (B "a|")) (mkBo (Some (fun (w : nat) (on : bool) => BHook (fun (w : nat) (d : bytes) => BReturn w (HErr EEOF)) (BReturn w HPass))) [] bre_new) = Some (WRet ((0%nat, None), 0%nat, s)) /\
     wr_buf (bo_rest s) = B "a|" /\ length (bo_hooks s) = 2%nat) /\
  b_call bre_init bre_step 5 0%nat (CLine (B "a|")) (mkBo (Some (fun (w : nat) (on : bool) => if on then BCall w CClose (fun _ w => BReturn w HPass) else BReturn w HPass)) [bre_hook] bre_new) = Some WPan.
Proof.
  split; [vm_compute; reflexivity|]. split; [eexists; split; [vm_compute; reflexivity|split; [|split]; vm_compute; reflexivity]|]. split; [eexists; split; vm_compute; reflexivity|].
  split; [eexists; split; [vm_compute; reflexivity|split; vm_compute; reflexivity]|vm_compute; reflexivity].
Qed.
(** The writer of C149 with a line callback that counts. *)
Example C150_plain_case :
  bre_sent (b_call bre_init bre_step 5 0%nat (CLine (B "a|")) (widen (mkTwriter (Some (fun (w : nat) (on : bool) => if on then UReturn w None else UErr (fun e => UReturn (w + 10)%nat e))) [fun (w : nat) (d : bytes) => (S w, HPass)] bre_new))) =
    Some ((0%nat, None), 11%nat, [], B "a|").
Proof. vm_compute. reflexivity. Qed.
(** The connection fails in the Flush of a line callback, which refuses the line; and in Flush itself. *)
Example C150_sticky_case :
  (exists s, b_call bre_init bre_step 5 tt (CLine (B "a|")) (mkBo None [fun (w : unit) (d : bytes) => BCall w CFlush (fun r w => match snd r with Some e => BReturn w (HErr e) | None => BReturn w HPass end)]
     (with_buf (B "z|") None (new_writer [WR None (Some EEOF)] 0))) = Some (WRet ((0%nat, Some EEOF), tt, s)) /\ wr_err (bo_rest s) = Some EEOF /\ wr_buf (bo_rest s) <> B "z|a|") /\
  (exists s, b_call bre_init bre_step 5 tt CFlush (mkBo (Some (fun (w : unit) (on : bool) => BReturn w (if on then HErr EEOF else HPass))) [] bre_new) = Some (WRet ((0%nat, Some EEOF), tt, s)) /\ wr_err (bo_rest s) = Some EEOF).
Proof. split; eexists; [split; [vm_compute; reflexivity|split; [reflexivity|vm_compute; discriminate]]|split; vm_compute; reflexivity]. Qed.
(** Callbacks that call each other without end. *)
Example C150_recursion_case :
  b_call bre_init bre_step 40 tt (CLine (B "a|")) (mkBo (Some (fun (w : unit) (on : bool) => if on then BCall w (CLine (B "now|")) (fun _ w => BReturn w HPass) else BReturn w HPass)) [fun (w : unit) (d : bytes) => BCall w CFlush (fun _ w => BReturn w HPass)] bre_new) = None.
Proof. vm_compute. reflexivity. Qed.
(** A line callback of C146 that writes a line and flushes before each line. *)
Example C150_lines_case :
  let s : @lwriter bool unit := mkLwriter [script (fun _ => [OLine (B "pre|"); OFlush]) (fun _ => HPass)] bre_new in
  (exists s', re_write bre_init bre_step 3 false (B "a|") s = Some (WRet (None, false, s')) /\ wr_buf (lw_rest s') = B "a|") /\
  bre_sent (b_call bre_init bre_step 4 false (CLine (B "a|")) (untimed true s)) = Some ((0%nat, None), false, B "pre|", B "a|").
Proof. split; [eexists; split; vm_compute; reflexivity|vm_compute; reflexivity]. Qed.
