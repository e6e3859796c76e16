(** Line callbacks that call the writer they belong to. *)
From Verif Require Import Base LineReader LineWriter SpecWriter WriterReentry SpecWriterReentry WriterReentryFacts.

(** C146: a call of the writer in one of its line callbacks has the effect it has between two calls of WriteLine. *)
Theorem C146_line W dst (dinit : Z -> dst) dstep (w : W) d s :
  (forall e w' s', (exists f, re_write dinit dstep f w d s = Some (WRet (e, w', s'))) <-> wwrites dinit dstep w d s (Some (e, w', s'))) /\
  ((exists f, re_write dinit dstep f w d s = Some WPan) <-> wwrites dinit dstep w d s None) /\
  (forall f, re_write dinit dstep f w d s <> Some WStuck).
Proof.
  split; [intros e w' s'; split|split; [split|]].
  - intros [f H]. exact (proj2 (re_write_sound _ _ _ _ _ _ _ H)).
  - intros H. exact (re_write_complete _ _ _ _ _ _ H).
  - intros [f H]. exact (proj2 (re_write_sound _ _ _ _ _ _ _ H)).
  - intros H. exact (re_write_complete _ _ _ _ _ _ H).
  - intros f H. exact (proj1 (re_write_sound _ _ _ _ _ _ _ H)).
Qed.
Print Assumptions C146_line.
(** There is only one result, and more time does not change it. *)
Theorem C146_once W dst (dinit : Z -> dst) dstep (w : W) d s :
  (forall o o', wwrites dinit dstep w d s o -> wwrites dinit dstep w d s o' -> o = o') /\
  (forall f r, re_write dinit dstep f w d s = Some r -> forall g, (f <= g)%nat -> re_write dinit dstep g w d s = Some r).
Proof. split; [intros o o'; apply wwrites_once|intros f r; apply re_write_more]. Qed.
Print Assumptions C146_once.
(** With callbacks that call nothing it is the WriteLine of C22-C32. *)
Theorem C146_plain W dst (dinit : Z -> dst) dstep f (hs : list (hook W)) w d x : (wr_err x = None -> wr_open x = true) ->
  match write_line dstep w d (dress hs (wr_err x) x) with
  | WRet (e, w', y) => exists x', re_write dinit dstep (S f) w d (mkLwriter (map quiet hs) x) = Some (WRet (e, w', mkLwriter (map quiet hs) x')) /\ y = dress hs (wr_err x') x'
  | WPan => re_write dinit dstep (S f) w d (mkLwriter (map quiet hs) x) = Some WPan
  | WStuck => re_write dinit dstep (S f) w d (mkLwriter (map quiet hs) x) = None
  end.
Proof. apply re_write_quiet. Qed.
Print Assumptions C146_plain.
(** A callback that makes any calls, whatever they return, and then drops the line or refuses it: the calls are made in this
    order, as if without a callback.  If it passes the line and no call has failed, the line follows them. *)
Theorem C146_script dst (dinit : Z -> dst) dstep f O V d x : wr_hooks x = [] -> wr_err x = None -> wr_open x = true ->
  match makes dinit dstep (O d) x with
  | WPan => re_write dinit dstep (S (S f)) false d (mkLwriter [script O V] x) = Some WPan
  | WStuck => re_write dinit dstep (S (S f)) false d (mkLwriter [script O V] x) = None
  | WRet x' =>
      let hs := if closes (O d) then [] else [script O V] in
      match V d with
      | HDrop => re_write dinit dstep (S (S f)) false d (mkLwriter [script O V] x) = Some (WRet (None, false, mkLwriter hs x'))
      | HErr e => re_write dinit dstep (S (S f)) false d (mkLwriter [script O V] x) = Some (WRet (Some e, false, mkLwriter hs (dress [] (Some e) x')))
      | HPass => wr_err x' = None ->
          re_write dinit dstep (S (S f)) false d (mkLwriter [script O V] x) =
          match write_line dstep tt d x' with
          | WRet (e, _, y) => Some (WRet (e, false, mkLwriter hs y))
          | WPan => Some WPan
          | WStuck => None
          end
      end
  end.
Proof.
  intros Hh He Ho. assert (H0 : sound x) by (split; auto). pose proof (script_line dinit dstep f O V d x H0 He) as P. pose proof (makes_sound dinit dstep (O d) x) as M.
  destruct (makes dinit dstep (O d) x) as [x'| |]; auto. cbv zeta in *. destruct (V d) as [| |e]; auto. rewrite P. specialize (M x' H0 eq_refl).
  unfold set_error, dress. now rewrite (proj1 M).
Qed.
Print Assumptions C146_script.
(** A callback that writes other lines with WriteLine before each line: all these lines are written in this order, up to the
    first error. *)
Theorem C146_insert dst (dinit : Z -> dst) dstep f pre d x : wr_hooks x = [] -> wr_err x = None -> wr_open x = true ->
  re_write dinit dstep (S (S f)) false d (mkLwriter [inserting pre] x) =
  match lines_until dstep (pre d ++ [d]) x with
  | WRet (e, y) => Some (WRet (e, false, mkLwriter [inserting pre] y))
  | WPan => Some WPan
  | WStuck => None
  end.
Proof. intros Hh He Ho. apply inserting_line; [split; auto|exact He]. Qed.
Print Assumptions C146_insert.
(** A callback that writes a line for every line never returns: WriteLine runs it again. *)
Theorem C146_recursion W dst (dinit : Z -> dst) dstep (g : W -> bytes -> bytes) k x hs w d o : wr_err x = None ->
  ~ wwrites dinit dstep w d (mkLwriter ((fun w d => QLine w (g w d) (k w d)) :: hs) x) o.
Proof.
  intros E H. apply re_write_complete in H. destruct H as [f H]. rewrite (re_write_recursion dinit dstep g k x hs E f w d) in H. discriminate.
Qed.
Print Assumptions C146_recursion.
(** An error returned by WriteLine is returned by Err. *)
Theorem C146_sticky W dst (dinit : Z -> dst) dstep f (w : W) d s e w' s' :
  re_write dinit dstep f w d s = Some (WRet (Some e, w', s')) -> wr_err (lw_rest s') = Some e.
Proof. apply re_write_sticky. Qed.
Print Assumptions C146_sticky.
(** A callback that closes the writer and passes the line: the other callbacks are asked nevertheless, and then the program
    panics (unless Timeout refuses). *)
Theorem C146_close W dst (dinit : Z -> dst) dstep f (hs : list (hook W)) w d x e x' w2 v :
  wr_err x = None -> close_writer dstep x = WRet (e, x') -> run_hooks hs w d = (w2, v) ->
  re_write dinit dstep (S f) w d (mkLwriter ((fun w _ => QClose (fun _ => QReturn w HPass)) :: map quiet hs) x) =
    match v with
    | HPass => if (wr_timeout x' && match hd None (wr_treplies x') with Some _ => true | None => false end)%bool
               then match put_line dstep d x' with WRet (e', y) => Some (WRet (e', w2, mkLwriter [] y)) | _ => None end
               else Some WPan
    | HDrop => Some (WRet (None, w2, mkLwriter [] x'))
    | HErr e' => Some (WRet (Some e', w2, mkLwriter [] (set_error e' x')))
    end.
Proof.
  intros He Hc Hr. cbn [re_write lw_rest lw_hooks]. rewrite He. cbn [run_wprogs run_wprog w_after lw_rest lw_hooks]. rewrite Hc. cbn [w_after lw_hooks lw_rest]. rewrite run_quiet, Hr.
  destruct v; auto. unfold w_after. cbn [lw_rest lw_hooks].
  assert (Ho : wr_open x' = false).
  { unfold close_writer in Hc. destruct (wr_open x); [|discriminate]. destruct (bw_flush dstep x) as [[l w1]| |]; try discriminate. cbv zeta in Hc.
    match type of Hc with context [wr_zlib_on ?z] => destruct (wr_zlib_on z); [destruct (zlib_do dstep DClose z) as [[e2 w3]| |]|] end; try discriminate; now injection Hc as <- <-. }
  rewrite (put_line_closed dstep d x' Ho). destruct (wr_timeout x'); [|reflexivity]. destruct (hd None (wr_treplies x')); reflexivity.
Qed.
Print Assumptions C146_close.

(** Cases. *)
Definition wre_step (u : unit) (o : dop) : unit * list bytes := (u, match o with DWrite p => [p] | _ => [] end).
Definition wre_new : writer unit unit := new_writer [] 0.
Definition wre_init (_ : Z) : unit := tt.
(** A callback that announces each line: "a|" and then "b|" in one buffer; then a Flush. *)
Example C146_case :
  let pre := fun d : bytes => [B "before|"] in
  exists y, re_write wre_init wre_step 5 false (B "b|") (mkLwriter [inserting pre] wre_new) = Some (WRet (None, false, mkLwriter [inserting pre] y)) /\
    wr_buf y = B "before|b|" /\ wwrites wre_init wre_step false (B "b|") (mkLwriter [inserting pre] wre_new) (Some (None, false, mkLwriter [inserting pre] y)).
Proof.
  eexists. split; [vm_compute; reflexivity|]. split; [reflexivity|].
  apply (proj1 (C146_line bool unit wre_init wre_step false (B "b|") (mkLwriter [inserting (fun _ : bytes => [B "before|"])] wre_new))). exists 5%nat. vm_compute. reflexivity.
Qed.
(** "$ZOn|" announced and compression switched on by a callback that drops the line; the next line is compressed. *)
Example C146_zon_case :
  let os := fun d : bytes => if bytes_eqb d (B "$ZOn|") then [OWrite d; OEnable 6] else [] in
  let v := fun d : bytes => if bytes_eqb d (B "$ZOn|") then HDrop else HPass in
  exists y, re_writes wre_init wre_step 5 false [B "a|"; B "$ZOn|"; B "c|"] (mkLwriter [script os v] wre_new) = Some (WRet (None, false, mkLwriter [script os v] y)) /\
    delivered (cn_trace (wr_conn y)) = B "a|$ZOn|" /\ wr_buf y = B "c|" /\ wr_zcur y = true.
Proof. eexists. split; [vm_compute; reflexivity|]. repeat split; reflexivity. Qed.
(** If it passes the line instead, the line itself is compressed. *)
Example C146_zon_pass_case :
  let os := fun d : bytes => if bytes_eqb d (B "$ZOn|") then [OEnable 6] else [] in
  exists y, re_writes wre_init wre_step 5 false [B "a|"; B "$ZOn|"; B "c|"] (mkLwriter [script os (fun _ => HPass)] wre_new) =
      Some (WRet (None, false, mkLwriter [script os (fun _ => HPass)] y)) /\
    delivered (cn_trace (wr_conn y)) = B "a|" /\ wr_buf y = B "$ZOn|c|" /\ wr_zcur y = true.
Proof. eexists. split; [vm_compute; reflexivity|]. repeat split; reflexivity. Qed.
(** Callbacks that call nothing, and one that closes the writer before another one sees the line. *)
Example C146_plain_case :
  let hs : list (hook nat) := [fun n d => (S n, HPass)] in
  (exists x', re_write wre_init wre_step 1 3%nat (B "a|") (mkLwriter (map quiet hs) wre_new) = Some (WRet (None, 4%nat, mkLwriter (map quiet hs) x')) /\ wr_buf x' = B "a|") /\
  re_write wre_init wre_step 1 3%nat (B "a|") (mkLwriter ((fun w _ => QClose (fun _ => QReturn w HPass)) :: map quiet hs) wre_new) = Some WPan /\
  (exists x', re_write wre_init wre_step 1 3%nat (B "a|") (mkLwriter ((fun w _ => QClose (fun _ => QReturn w HPass)) :: map quiet hs) (set_timeout [Some (EText "late")] wre_new)) =
    Some (WRet (Some (EText "late"), 4%nat, mkLwriter [] x')) /\ wr_err x' = Some (EText "late")).
Proof. split; [eexists; split; [vm_compute; reflexivity|reflexivity]|]. split; [vm_compute; reflexivity|]. eexists. split; [vm_compute; reflexivity|reflexivity]. Qed.
(** A callback that registers another one: it sees the next line, not this one. *)
Example C146_hook_case :
  let count : nat -> bytes -> wprog nat := fun n _ => QReturn (S n) HPass in
  let h : nat -> bytes -> wprog nat := fun n _ => QHook count (QReturn n HPass) in
  exists s, re_write wre_init wre_step 1 0%nat (B "a|") (mkLwriter [h] wre_new) = Some (WRet (None, 0%nat, s)) /\
    exists s', re_write wre_init wre_step 1 0%nat (B "b|") s = Some (WRet (None, 1%nat, s')).
Proof. eexists. split; [vm_compute; reflexivity|]. eexists. vm_compute. reflexivity. Qed.

(** "If WriteLine returns nil, Err does too" does not hold: the error of a call in a callback that passes the line. *)
Theorem C146_unnoticed_refuted : ~ (forall W dst (dinit : Z -> dst) dstep f (w : W) d s w' s',
  re_write dinit dstep f w d s = Some (WRet (None, w', s')) -> wr_err (lw_rest s') = None).
Proof.
  intros H. specialize (H bool unit wre_init wre_step 2%nat false (B "a|")
    (mkLwriter [script (fun _ => [OFlush]) (fun _ => HPass)] (set_timeout [Some (EText "late"); None] wre_new))). 
  match type of H with forall w' s', ?l = _ -> _ => let v := eval vm_compute in l in match v with Some (WRet (_, ?a, ?b)) => specialize (H a b eq_refl) end end. discriminate.
Qed.
Print Assumptions C146_unnoticed_refuted.
(** It holds if no call in a callback fails: the error after WriteLine is the one it returns, or the one that the callbacks
    have left. *)
Theorem C146_noticed W dst (dinit : Z -> dst) dstep (w : W) d hs x e w' hs' x' :
  wwrites dinit dstep w d (mkLwriter hs x) (Some (e, w', mkLwriter hs' x')) ->
  match e with
  | Some e => wr_err x' = Some e
  | None => wr_err x' = None \/
      exists v y er, wasked dinit dstep hs w d (mkLwriter hs x) (Some (w', v, mkLwriter hs' y)) /\ wr_err y = Some er /\ wr_err x' = Some er /\ (v = HPass \/ v = HDrop)
  end.
Proof.
  intros H. inversion H as [? ? ? ? e0 E|? ? ? ? ? ? y ? ? E A P| |? ? ? ? ? ? E A|? ? ? ? ? ? ? y E A|]; subst; auto.
  - inversion P as [x1 O1 L|e0 x1 O1 L| | |e0 O1 T1 T2]; subst; auto. destruct (wr_err y) as [er|] eqn:Er; [|left; reflexivity]. right. exists HPass, y, er. auto 6.
  - destruct (wr_err x') as [er|] eqn:Er; [|left; reflexivity]. right. exists HDrop, x', er. auto 6.
Qed.
Print Assumptions C146_noticed.
