(** Property C149: a Timeout callback that calls the writer it belongs to.  Specification: SpecTimeoutReentry.v.  Proofs:
    TimeoutReentryFacts.v, TimeoutToldFacts.v. *)
From Verif Require Import Base LineReader LineWriter SpecWriter SpecWriterReentry LineWriterFacts WriterReentryFacts TimeoutReentry SpecTimeoutReentry TimeoutReentryFacts TimeoutToldFacts.

(** Without a Timeout callback, or with one that only answers, each method is that of C22-C32 (and C11). *)
Theorem C149_plain {A dst} (dinit : Z -> dst) dstep f (a : A) o x : (wr_err x = None -> wr_open x = true) ->
  t_call dinit dstep (S f) (a, wr_treplies x) (as_call o) (view x) =
  match run_op dinit dstep a o x with
  | WRet (n, e, a', y) => Some (WRet (n, e, (a', wr_treplies y), view y))
  | WPan => Some WPan
  | WStuck => None
  end.
Proof. apply answer_call. Qed.
Print Assumptions C149_plain.
(** A callback that makes any calls when the timeout is set and when it is removed: WriteLine and Flush make the former, then do their own
    work, then make the latter.  The result of WriteLine or Flush is that of its own work, whatever the calls have returned; if the
    callback refuses, it is this error.  If a call has closed the writer before its own work, it panics. *)
Theorem C149_script {dst} (dinit : Z -> dst) dstep f O1 v O2 o x : wr_timeout x = false -> wr_hooks x = [] -> wr_err x = None -> wr_open x = true -> o = OFlush \/ (exists d, o = OLine d) ->
  let t := Some (timing O1 v O2) in
  let call := t_call dinit dstep (S (S f)) false (as_call o) (mkTwriter t [] x) in
  (makes dinit dstep O1 x = WPan -> call = Some WPan) /\
  (forall x1, makes dinit dstep O1 x = WRet x1 ->
    (forall e, v = Some e -> call = Some (WRet (O, Some e, false, mkTwriter t [] (dress [] (Some e) x1)))) /\
    (v = None -> goes dinit dstep o x1 None -> call = Some WPan) /\
    (forall e x2, v = None -> goes dinit dstep o x1 (Some (e, x2)) ->
      (makes dinit dstep O2 x2 = WPan -> call = Some WPan) /\
      (forall x3, makes dinit dstep O2 x2 = WRet x3 -> call = Some (WRet (O, e, false, mkTwriter t [] x3))))).
Proof.
  intros Ht Hh He Ho Oo t call. assert (L : lone x) by (split; [split|]; auto). assert (SO : sets_timeout o) by (destruct Oo as [-> | [d ->]]; exact Logic.I).
  subst call t. rewrite script_call by assumption. rewrite script_timed by assumption. split; [intros ->; reflexivity|]. intros x1 E1. rewrite E1.
  pose proof (makes_lone dinit dstep _ _ _ L E1) as [[L1 _] L2]. split; [|split].
  - intros e ->. unfold set_error, dress. rewrite L1. reflexivity.
  - intros -> G. apply goes_body in G; auto. unfold told_t in G. destruct (body_of dstep o x1) as [[e x2]| |]; try discriminate. reflexivity.
  - intros e x2 -> G. apply goes_body in G; auto. unfold told_t in G. destruct (body_of dstep o x1) as [[e' x2']| |]; try discriminate. injection G as -> ->.
    split; [intros ->; reflexivity|]. intros x3 ->. reflexivity.
Qed.
Print Assumptions C149_script.
(** A callback that calls Flush when the timeout is removed: WriteLine is followed by Flush.  An error of this Flush is returned by the next
    call, not by this one; without an error nothing is left in the buffer. *)
Theorem C149_autoflush {dst} (dinit : Z -> dst) dstep f d x e x1 e2 x2 : wr_timeout x = false -> wr_hooks x = [] -> wr_err x = None -> wr_open x = true ->
  write_line dstep tt d x = WRet (e, tt, x1) -> flush dstep x1 = WRet (e2, x2) ->
  let t := Some (timing [] None [OFlush]) in
  t_call dinit dstep (S (S f)) false (CLine d) (mkTwriter t [] x) = Some (WRet (O, e, false, mkTwriter t [] x2)) /\ wr_err x2 = e2 /\ (e2 = None -> wr_buf x2 = []).
Proof.
  intros Ht Hh He Ho E1 E2 t.
  assert (D : dress [] None x = x) by (rewrite <- Hh, <- He; destruct x; reflexivity).
  assert (G : goes dinit dstep (OLine d) x (Some (e, x1))).
  { assert (SX : sound x) by (split; auto). pose proof (line_sound dstep d x SX) as S1. rewrite E1 in S1. destruct S1 as [S1 _].
    destruct e as [e|].
    - pose proof (line_fails dstep d x e tt x1 SX E1) as F. replace x1 with (@dress unit unit dst [] (Some e) x1) by (rewrite <- S1, <- F; destruct x1; reflexivity).
      apply (go_error dinit dstep (OLine d) x O e tt x1 Ho). cbn [run_op]. rewrite D, E1. reflexivity.
    - pose proof (line_fine dstep d x tt x1 SX He E1) as F. replace x1 with (@dress unit unit dst [] (wr_err x) x1) by (rewrite He, <- S1, <- F; destruct x1; reflexivity).
      apply (go_done dinit dstep (OLine d) x O tt x1 Ho). cbn [run_op]. rewrite D, E1. reflexivity. }
  destruct (C149_script dinit dstep f [] None [OFlush] (OLine d) x Ht Hh He Ho (or_intror (ex_intro _ d eq_refl))) as [_ P].
  destruct (P x eq_refl) as (_ & _ & P3). destruct (P3 e x1 eq_refl G) as [_ P4]. split; [apply P4; cbn [makes run_op]; rewrite E2; reflexivity|].
  assert (T1 : wr_timeout x1 = false) by (eapply (run_op_timeout dinit dstep (OLine d) x O e tt x1 Ht); cbn [run_op]; rewrite E1; reflexivity).
  unfold flush in E2. destruct (wr_err x1) as [e1|] eqn:Ee; [injection E2 as <- <-; split; [exact Ee|discriminate]|].
  unfold timed in E2. rewrite T1 in E2. destruct (bw_flush dstep x1) as [[e3 y]| |] eqn:F; try discriminate. apply bw_flush_frame in F. destruct F as [FF F2].
  destruct FF as (F1&_&_&_&_&_&_&F8&_). destruct e3 as [e3|]; cbn [checked] in E2; [injection E2 as <- <-; split; [reflexivity|discriminate]|].
  destruct (wr_zlib_on y).
  - unfold zlib_do in E2. destruct (wr_zw y) as [z|]; [|discriminate]. destruct (zw_do dstep DFlush z (wr_conn y)) as [[[e4|] z'] c']; cbn in E2; injection E2 as <- <-; cbn; [split; [reflexivity|discriminate]|].
    split; [congruence|]. intros _. apply F2. reflexivity.
  - injection E2 as <- <-. split; [congruence|]. intros _. apply F2. reflexivity.
Qed.
Print Assumptions C149_autoflush.
(** An error that WriteLine or Flush returns is returned by Err, whatever the callback does. *)
Theorem C149_sticky {W dst} (dinit : Z -> dst) dstep f (w : W) c s n e w' s' : c = CFlush \/ (exists d, c = CLine d) ->
  t_call dinit dstep f w c s = Some (WRet (n, Some e, w', s')) -> wr_err (tw_rest s') = Some e.
Proof. intros H. apply call_sticky. destruct H as [-> | [d ->]]; exact Logic.I. Qed.
Print Assumptions C149_sticky.
(** A callback that calls Flush or WriteLine whenever the timeout is set never returns, nor do Flush and WriteLine. *)
Theorem C149_recursion {W dst} (dinit : Z -> dst) dstep (t : W -> bool -> tprog W) g c0 k x f w : (forall w, t w true = UCall (g w) (c0 w) (k w)) ->
  (forall w, c0 w = CFlush \/ exists d, c0 w = CLine d) -> wr_err x = None ->
  t_call dinit dstep f w CFlush (mkTwriter (Some t) [] x) = None /\ forall d, t_call dinit dstep f w (CLine d) (mkTwriter (Some t) [] x) = None.
Proof.
  intros Ht H0 E. assert (G : forall w, match c0 w with CLine d => forall w : W, snd (run_hooks [] w d) = HPass | CFlush => True | _ => False end).
  { intros w0. destruct (H0 w0) as [-> | [d ->]]; [exact Logic.I|reflexivity]. }
  split; [|intros d]; apply (recursion dinit dstep t [] x g c0 k Ht G E); [exact Logic.I|reflexivity].
Qed.
Print Assumptions C149_recursion.
(** Neither does one that calls Flush whenever the timeout is removed, as long as there is no error. *)
Theorem C149_endless {W dst} (dinit : Z -> dst) dstep (t : W -> bool -> tprog W) hs k f w x : (forall w, t w true = UReturn w None) -> (forall w, t w false = UCall w CFlush (k w)) ->
  wr_err x = None -> wr_open x = true -> wr_berr x = None -> wr_buf x = [] -> wr_zlib_on x = false ->
  t_call dinit dstep f w CFlush (mkTwriter (Some t) hs x) = None.
Proof. intros T1 T2. exact (endless dinit dstep t hs CFlush k T1 T2 eq_refl f w x). Qed.
Print Assumptions C149_endless.
(** A callback that sets Timeout to nil when it is called with true: Flush and WriteLine do not return (they panic behind their own work). *)
Theorem C149_nil {W dst} (dinit : Z -> dst) dstep f (w w1 : W) t x r : t w true = USet None (UReturn w1 None) -> wr_err x = None ->
  (t_call dinit dstep f w CFlush (mkTwriter (Some t) [] x) = Some r -> r = WPan) /\
  (forall d, t_call dinit dstep f w (CLine d) (mkTwriter (Some t) [] x) = Some r -> r = WPan).
Proof.
  intros Ht E. split; [|intros d]; destruct f as [|f]; try discriminate; cbn [t_call]; unfold t_flush, t_line; cbn [tw_rest tw_hooks run_hooks]; rewrite E;
    rewrite (timed_swap dinit dstep f _ w t None [] x w1 Ht); match goal with |- context [match ?b with WRet _ => _ | _ => _ end] => destruct b as [[e y]| |] end; try discriminate; intros R; now injection R as <-.
Qed.
Print Assumptions C149_nil.
(** One that sets it to another function: this is the one that is called with false. *)
Theorem C149_swap {W dst} (dinit : Z -> dst) dstep f (w w1 : W) t t' w2 e2 x y : t w true = USet (Some t') (UReturn w1 None) -> t' w1 false = UReturn w2 e2 ->
  wr_err x = None -> wr_timeout x = false -> wr_open x = true -> flush dstep x = WRet y ->
  t_call dinit dstep (S f) w CFlush (mkTwriter (Some t) [] x) = Some (WRet (O, fst y, w2, mkTwriter (Some t') [] (snd y))).
Proof.
  intros Ht Ht' E To Oo F. cbn [t_call]. unfold t_flush. cbn [tw_rest]. rewrite E. rewrite (timed_swap dinit dstep f _ w t (Some t') [] x w1 Ht), (flush_body_open dstep x Oo).
  unfold flush, timed in F. rewrite E, To in F. unfold fbody. rewrite F. destruct y as [e y]. rewrite Ht'. reflexivity.
Qed.
Print Assumptions C149_swap.

(** Cases. *)
Definition tre_step (u : unit) (o : dop) : unit * list bytes := (u, match o with DWrite p => [p] | _ => [] end).
Definition tre_new : writer unit unit := new_writer [] 0.
Definition tre_init (_ : Z) : unit := tt.
Notation tre := (t_calls tre_init tre_step 9 false).
Definition tre_sent (r : option (wout (list (nat * option error) * bool * @twriter bool unit))) :=
  match r with Some (WRet (l, _, s)) => Some (l, delivered (cn_trace (wr_conn (tw_rest s))), wr_buf (tw_rest s)) | _ => None end.
(** "After Write nothing is in the buffer" does not hold: a line that the callback writes in the Flush of Write is behind the bytes. *)
Theorem C149_order_refuted : ~ (forall O1 O2 p n w s', t_call tre_init tre_step 9 false (CWrite p) (mkTwriter (Some (timing O1 None O2)) [] (with_buf (B "a|") None tre_new)) = Some (WRet (n, None, w, s')) ->
  wr_buf (tw_rest s') = []).
Proof.
  intros H. specialize (H [] [OLine (B "b|")] (B "c")).
  match type of H with forall n w s', ?l = _ -> _ => let v := eval vm_compute in l in match v with Some (WRet (?n, _, ?a, ?b)) => specialize (H n a b eq_refl) end end. discriminate.
Qed.
Print Assumptions C149_order_refuted.
(** It holds if the callback calls nothing when the timeout is removed: Write makes the calls, flushes and writes. *)
Theorem C149_write {dst} (dinit : Z -> dst) dstep f O1 p x x1 e u x2 n e' x3 : wr_timeout x = false -> wr_hooks x = [] -> wr_err x = None -> wr_open x = true -> wr_buf x <> [] ->
  makes dinit dstep O1 x = WRet x1 -> wr_err x1 = None -> run_op dinit dstep tt OFlush x1 = WRet (u, e, tt, x2) -> write dstep p x2 = WRet (n, e', x3) ->
  let t := Some (timing O1 None []) in
  t_call dinit dstep (S (S f)) false (CWrite p) (mkTwriter t [] x) = Some (WRet (n, e', false, mkTwriter t [] x3)).
Proof.
  intros Ht Hh He Ho Hb E1 N1 E2 E3 t. assert (L : lone x) by (split; [split|]; auto). pose proof (makes_lone dinit dstep _ _ _ L E1) as L1. pose proof L1 as [[L1h L1o] L1t].
  pose proof (run_op_lone dinit dstep _ _ _ _ _ _ L1 E2) as [[L2h L2o] L2t]. cbn [run_op] in E2.
  destruct (flush dstep x1) as [[e0 z]| |] eqn:F; try discriminate. injection E2 as <- -> ->.
  change (t_call dinit dstep (S (S f)) false (CWrite p)) with (t_write dstep (t_call (W := bool) dinit dstep (S f)) p false). unfold t_write. cbn [tw_rest]. rewrite He.
  destruct (wr_buf x) as [|b bs]; [congruence|]. unfold t_flush. cbn [tw_rest]. rewrite He. subst t. change (flush_body dstep) with (body_of dstep OFlush). rewrite script_timed by (try exact L; exact Logic.I).
  rewrite E1. cbn [body_of makes]. rewrite (flush_body_open dstep x1 (L1o N1)). unfold flush, timed in F. rewrite N1, L1t in F. fold (fbody dstep x1) in F. rewrite F.
  pose proof (fbody_open dstep x1 e x2 F) as (O2 & _ & _ & _).
  unfold fbody in F. destruct (bw_flush dstep x1) as [[e3 y]| |] eqn:F3; try discriminate. apply bw_flush_frame in F3. destruct F3 as [(F1&_&_&_&_&_&_&F8&_) F2].
  destruct e3 as [e3|]; cbn [checked] in F.
  - injection F as <- <-. unfold write in E3. cbn [wr_err set_error] in E3. injection E3 as <- <- <-. reflexivity.
  - assert (G : (wr_zlib_on y = true /\ exists e4, e = Some e4 /\ wr_err x2 = Some e4) \/ (e = None /\ wr_err x2 = None /\ wr_buf x2 = [])).
    { pose proof (proj2 (proj2 F2) eq_refl) as F4. destruct (wr_zlib_on y).
      - unfold zlib_do in F. destruct (wr_zw y) as [zz|]; [|discriminate]. destruct (zw_do dstep DFlush zz (wr_conn y)) as [[[e4|] z'] c']; cbn in F; injection F as <- <-; cbn; [left; eauto|].
        right. split; [reflexivity|]. split; [congruence|exact F4].
      - injection F as <- <-. right. split; [reflexivity|]. split; [congruence|exact F4]. }
    destruct G as [(_ & e4 & -> & G) | (-> & G1 & G2)]; unfold write in E3.
    + rewrite G in E3. injection E3 as <- <- <-. reflexivity.
    + rewrite G1, G2 in E3. unfold t_cur. cbn [tw_rest]. rewrite O2, (L1o N1). rewrite E3. reflexivity.
Qed.
Print Assumptions C149_write.

(** Answers of a list: the second refuses. *)
Example C149_plain_case :
  let x : writer nat unit := set_timeout [None; Some (EText "late")] (on_write (fun n _ => (S n, HPass)) (new_writer [] 0)) in
  exists s1, t_call tre_init tre_step 1 (0%nat, wr_treplies x) (CLine (B "a|")) (view x) = Some (WRet (0%nat, None, (1%nat, [Some (EText "late")]), s1)) /\
  exists s2, t_call tre_init tre_step 1 (1%nat, [Some (EText "late")]) CFlush s1 = Some (WRet (0%nat, Some (EText "late"), (1%nat, []), s2)) /\
    cn_trace (wr_conn (tw_rest s2)) = [EvTimeout true None; EvTimeout false None; EvTimeout true (Some (EText "late"))].
Proof. eexists. split; [vm_compute; reflexivity|]. eexists. split; vm_compute; reflexivity. Qed.
(** A line written before each line, and Flush behind it; and two that refuse or close. *)
Example C149_script_case :
  tre_sent (tre [CLine (B "a|"); CLine (B "b|")] (mkTwriter (Some (timing [OLine (B "now|")] None [OFlush])) [] tre_new)) = Some ([(0%nat, None); (0%nat, None)], B "now|a|now|b|", []) /\
  tre_sent (tre [CLine (B "a|"); CFlush] (mkTwriter (Some (timing [OLine (B "now|")] (Some (EText "late")) [])) [] tre_new)) =
    Some ([(0%nat, Some (EText "late")); (0%nat, Some (EText "late"))], [], B "now|") /\
  tre [CLine (B "a|")] (mkTwriter (Some (timing [OClose] None [])) [] tre_new) = Some WPan /\
  tre_sent (tre [CLine (B "a|"); CLine (B "b|")] (mkTwriter (Some (timing [] None [OClose])) [] tre_new)) = Some ([(0%nat, None); (0%nat, Some err_writer_closed)], B "a|", []).
Proof. repeat split; vm_compute; reflexivity. Qed.
(** The connection fails in the Flush of the callback: WriteLine returns nil, the next one the error. *)
Example C149_autoflush_case :
  tre_sent (tre [CLine (B "a|"); CLine (B "b|")] (mkTwriter (Some (timing [] None [OFlush])) [] (new_writer [WR None (Some EEOF)] 0))) = Some ([(0%nat, None); (0%nat, Some EEOF)], B "a|", []) /\
  tre_sent (tre [CLine (B "a|")] (mkTwriter (Some (timing [] None [OFlush])) [] tre_new)) = Some ([(0%nat, None)], B "a|", []).
Proof. split; vm_compute; reflexivity. Qed.
(** Endless callbacks. *)
Example C149_recursion_case :
  t_call tre_init tre_step 50 tt CFlush (mkTwriter (Some (fun (w : unit) (on : bool) => if on then UCall w (CLine (B "now|")) (fun _ w => UReturn w None) else UReturn w None)) [] tre_new) = None /\
  t_call tre_init tre_step 50 tt CFlush (mkTwriter (Some (fun (w : unit) (on : bool) => if on then UReturn w None else UCall w CFlush (fun _ w => UReturn w None))) [] tre_new) = None.
Proof. split; vm_compute; reflexivity. Qed.
(** A callback that removes or replaces itself; removing it when it is called with false is fine. *)
Example C149_nil_case :
  let t : bool -> bool -> tprog bool := fun w on => if on then USet None (UReturn w None) else UReturn w None in
  tre [CLine (B "a|")] (mkTwriter (Some t) [] tre_new) = Some WPan /\
  let t2 : bool -> bool -> tprog bool := fun w on => if on then UReturn w None else USet None (UReturn w None) in
  tre_sent (tre [CLine (B "a|"); CFlush] (mkTwriter (Some t2) [] tre_new)) = Some ([(0%nat, None); (0%nat, None)], B "a|", []) /\
  let t3 : bool -> bool -> tprog bool := fun w on => if on then USet (Some (fun (w on : bool) => UMark on None (UReturn w None))) (UReturn w None) else UReturn w None in
  exists s, t_call tre_init tre_step 1 false CFlush (mkTwriter (Some t3) [] tre_new) = Some (WRet (0%nat, None, false, s)) /\ cn_trace (wr_conn (tw_rest s)) = [EvTimeout false None].
Proof. cbv zeta. split; [vm_compute; reflexivity|]. split; [vm_compute; reflexivity|]. eexists. split; vm_compute; reflexivity. Qed.
(** Write, with a line before it. *)
Example C149_write_case :
  tre_sent (tre [CLine (B "a|"); CWrite (B "c")] (mkTwriter (Some (timing [OLine (B "now|")] None [])) [] tre_new)) = Some ([(0%nat, None); (1%nat, None)], B "now|a|now|c", []) /\
  tre_sent (tre [CLine (B "a|"); CWrite (B "c")] (mkTwriter (Some (timing [] None [OLine (B "b|")])) [] tre_new)) = Some ([(0%nat, None); (1%nat, None)], B "a|b|c", B "b|").
Proof. split; vm_compute; reflexivity. Qed.
(** Any callback, any line callbacks that call nothing and any method: what the program does is what the rules [ucalls] tell.  A call that
    returns or panics does what is told and nothing else; if nothing is told, it never returns. *)
Theorem C149_call {W dst} (dinit : Z -> dst) dstep (w : W) c t hs x o : wr_timeout x = false -> wr_hooks x = [] -> (wr_err x = None -> wr_open x = true) ->
  (ucalls dinit dstep w c (mkTwriter t hs x) o <->
   exists f, forall g, (f <= g)%nat -> t_call dinit dstep g w c (mkTwriter t hs x) = Some (match o with Some r => WRet r | None => WPan end)) /\
  (forall o', ucalls dinit dstep w c (mkTwriter t hs x) o -> ucalls dinit dstep w c (mkTwriter t hs x) o' -> o = o') /\
  (forall f r, t_call dinit dstep f w c (mkTwriter t hs x) = Some r -> exists o', ucalls dinit dstep w c (mkTwriter t hs x) o' /\ r = match o' with Some a => WRet a | None => WPan end).
Proof.
  intros Ht Hh Ho. assert (F : fit (mkTwriter t hs x)) by (split; [split|]; auto). split; [exact (call_iff dinit dstep w c _ o F)|]. split; [intros o'; exact (call_one dinit dstep w c _ o o' F)|].
  intros f r E. destruct (call_told dinit dstep f w c _ r F E) as [S0 U]. exists (tell r). split; [exact U|]. destruct r; [reflexivity|reflexivity|destruct S0].
Qed.
Print Assumptions C149_call.
(** A callback that counts, writes the count as a line at its first two calls with true, and refuses if there is an error; Write behind a
    Flush whose callback has closed the writer panics, EnableZlibLevel as well. *)
Example C149_call_case :
  let t : nat -> bool -> tprog nat := fun w on => if on then
      (if (w <? 2)%nat then UCall (S w) (CLine [x30; x7c]) (fun r w1 => UErr (fun e => UReturn (w1 + 10) e)) else UReturn w None)
    else UErr (fun e => UReturn (match e with None => w | Some _ => (w + 100)%nat end) None) in
  (exists s, t_call tre_init tre_step 5 0%nat (CLine (B "a|")) (mkTwriter (Some t) [] tre_new) = Some (WRet (0%nat, None, 22%nat, s)) /\ wr_buf (tw_rest s) = B "0|0|a|") /\
  (exists s, t_call tre_init tre_step 5 2%nat CFlush (mkTwriter (Some t) [] (with_buf (B "a|") None (new_writer [WR None (Some EEOF)] 0))) = Some (WRet (0%nat, Some EEOF, 102%nat, s))) /\
  let c : bool -> bool -> tprog bool := fun w on => if on then UReturn w None else UCall w CClose (fun _ w => UReturn w None) in
  t_call tre_init tre_step 5 false (CWrite (B "c")) (mkTwriter (Some c) [] (with_buf (B "a|") None tre_new)) = Some WPan /\
  t_call tre_init tre_step 5 false (CZlib 3) (mkTwriter (Some c) [] tre_new) = Some WPan.
Proof. cbv zeta. split; [eexists; split; vm_compute; reflexivity|]. split; [eexists; vm_compute; reflexivity|]. split; vm_compute; reflexivity. Qed.
