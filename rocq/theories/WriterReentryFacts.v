(** Proofs about line callbacks of the writer that call the writer they belong to. *)
From Verif Require Import Base LineReader LineWriter SpecWriter WriterReentry SpecWriterReentry LineWriterFacts.

(** ** Writers that differ in callbacks and error *)
Section Dress.
Context {U W dst : Type} (dstep : dst -> dop -> dst * list bytes) (hs : list (hook W)) (er : option error).
Notation R := (@dress U W dst hs er).
Definition lift_d {A X Y} (f : X -> Y) (r : wout (A * X)) : wout (A * Y) :=
  match r with WRet (a, w) => WRet (a, f w) | WPan => WPan | WStuck => WStuck end.
Lemma cur_write_dress p w : cur_write dstep p (R w) = lift_d R (cur_write dstep p w).
Proof.
  unfold cur_write, zlib_do. cbn [wr_zcur wr_zw wr_conn dress]. destruct (wr_zcur w).
  - destruct (wr_zw w) as [z|]; [|reflexivity]. destruct (zw_do dstep (DWrite p) z (wr_conn w)) as [[[e|] z'] c']; reflexivity.
  - destruct (conn_write p (wr_conn w)) as [[n e] c']. reflexivity.
Qed.
Lemma zlib_do_dress o w : zlib_do dstep o (R w) = lift_d R (zlib_do dstep o w).
Proof.
  unfold zlib_do. cbn [wr_zw wr_conn dress]. destruct (wr_zw w) as [z|]; [|reflexivity].
  destruct (zw_do dstep o z (wr_conn w)) as [[e z'] c']; reflexivity.
Qed.
Lemma bw_flush_dress w : bw_flush dstep (R w) = lift_d R (bw_flush dstep w).
Proof.
  unfold bw_flush. cbn [wr_berr wr_buf dress]. destruct (wr_berr w); [reflexivity|]. destruct (wr_buf w) as [|b t]; [reflexivity|].
  fold (R w). rewrite cur_write_dress. destruct (cur_write dstep (b :: t) w) as [[[n e] w']| |]; cbn [lift_d]; try reflexivity.
  destruct e as [e|]; [reflexivity|]. destruct (n <? _)%nat; reflexivity.
Qed.
Lemma bw_loop_dress : forall fuel p w, bw_loop dstep fuel p (R w) = lift_d R (bw_loop dstep fuel p w).
Proof.
  induction fuel as [|f IH]; intros p w; cbn [bw_loop]; change (wr_berr (R w)) with (wr_berr w); change (wr_size (R w)) with (wr_size w); change (wr_buf (R w)) with (wr_buf w);
    (destruct (wr_berr w); [reflexivity|]); cbv zeta; (destruct (length p <=? _)%nat; [reflexivity|]); [reflexivity|].
  destruct (wr_buf w) as [|b t].
  - rewrite cur_write_dress. destruct (cur_write dstep p w) as [[[n e] w']| |]; cbn [lift_d]; try reflexivity.
    change (with_buf [] e (R w')) with (R (with_buf [] e w')). apply IH.
  - match goal with |- context [bw_flush dstep (with_buf ?q None (R w))] => change (with_buf q None (R w)) with (R (with_buf q None w)) end.
    rewrite bw_flush_dress. destruct (bw_flush dstep _) as [[e w']| |]; cbn [lift_d]; try reflexivity. apply IH.
Qed.
Lemma bw_write_dress p w : bw_write dstep p (R w) = lift_d R (bw_write dstep p w).
Proof. unfold bw_write. change (wr_conn (R w)) with (wr_conn w). apply bw_loop_dress. Qed.
(** The line behind the callbacks. *)
Definition body (X : Type) d (w : writer X dst) := timed (fun w1 => checked (bw_write dstep d w1) (fun w2 => WRet (None, w2))) w.
Lemma body_dress d (w : writer U dst) : body W d (R w) =
  match body U d w with
  | WRet (None, w') => WRet (None, R w')
  | WRet (Some e, w') => WRet (Some e, dress hs (Some e) w')
  | WPan => WPan
  | WStuck => WStuck
  end.
Proof.
  assert (G : forall v, checked (bw_write dstep d (R v)) (fun w2 => WRet (None, w2)) =
    match checked (bw_write dstep d v) (fun w2 => WRet (None, w2)) with
    | WRet (None, w') => WRet (None, R w')
    | WRet (Some e, w') => WRet (Some e, dress hs (Some e) w')
    | WPan => WPan
    | WStuck => WStuck
    end).
  { intros v. rewrite bw_write_dress. destruct (bw_write dstep d v) as [[[e|] v']| |]; reflexivity. }
  unfold body, timed. change (wr_timeout (R w)) with (wr_timeout w). change (wr_treplies (R w)) with (wr_treplies w). destruct (wr_timeout w); [|apply G].
  cbv zeta. destruct (hd None (wr_treplies w)) as [e1|]; [reflexivity|].
  match goal with |- match checked (bw_write dstep d ?a) _ with _ => _ end = _ => change a with (R (with_treplies (tl (wr_treplies w)) (with_io (conn_log (EvTimeout true None) (wr_conn w)) (wr_zw w) w))) end.
  rewrite G. destruct (checked _ _) as [[[e|] v]| |]; reflexivity.
Qed.
End Dress.

Section Facts.
Context {W dst : Type} (dinit : Z -> dst) (dstep : dst -> dop -> dst * list bytes).
Notation wr := (writer unit dst).
Notation lw := (@lwriter W dst).
Lemma dress_id (x : wr) : dress (wr_hooks x) (wr_err x) x = x. Proof. destruct x; reflexivity. Qed.
Lemma dress_dress {A B} hs e hs' e' (x : writer A dst) : @dress B W dst hs e (dress hs' e' x) = dress hs e x. Proof. reflexivity. Qed.

Lemma body_bare d (x : wr) : body dstep unit d x =
  match write_line dstep tt d (dress [] None x) with
  | WRet (None, _, x1) => WRet (None, dress (wr_hooks x) (wr_err x) x1)
  | WRet (Some e, _, x1) => WRet (Some e, dress (wr_hooks x) (Some e) x1)
  | WPan => WPan
  | WStuck => WStuck
  end.
Proof.
  unfold write_line. cbn [wr_err wr_hooks dress run_hooks]. fold (body dstep unit d (dress [] None x)).
  rewrite <- (dress_id x) at 1. change (dress (wr_hooks x) (wr_err x) x) with (dress (wr_hooks x) (wr_err x) (@dress unit unit dst [] None x)).
  rewrite body_dress. destruct (body dstep unit d (dress [] None x)) as [[[e|] y]| |]; reflexivity.
Qed.

(** [timed] keeps [wr_open] for what runs inside. *)
Lemma put_line_open d (x : wr) : wr_open x = true -> put_line dstep d x = body dstep unit d x.
Proof.
  intros H. unfold put_line, body, timed. rewrite H. destruct (wr_timeout x); [|reflexivity]. cbv zeta.
  destruct (hd None (wr_treplies x)) as [e|]; [reflexivity|]. cbn [wr_open with_treplies with_io]. rewrite H. reflexivity.
Qed.
Lemma put_line_closed d (x : wr) : wr_open x = false -> put_line dstep d x =
  (if wr_timeout x then match hd None (wr_treplies x) with
     | Some e => WRet (Some e, set_error e (with_treplies (tl (wr_treplies x)) (with_io (conn_log (EvTimeout true (Some e)) (wr_conn x)) (wr_zw x) x)))
     | None => WPan end else WPan).
Proof.
  intros H. unfold put_line, timed. rewrite H. destruct (wr_timeout x); [|reflexivity]. cbv zeta.
  destruct (hd None (wr_treplies x)) as [e|]; [reflexivity|]. cbn [wr_open with_treplies with_io]. rewrite H. reflexivity.
Qed.

Definition told {A B} (r : wout (A * B)) : option (option (A * B)) := match r with WRet x => Some (Some x) | WPan => Some None | WStuck => None end.

Lemma puts_iff d (x : wr) o : puts dstep d x o <-> told (put_line dstep d x) = Some o.
Proof.
  destruct (wr_open x) eqn:Ho.
  - rewrite (put_line_open d x Ho), body_bare. split.
    + intros H. inversion H as [x1 H1 H2|e x1 H1 H2|H1 H2|H1 H2|e H1 H2 H3]; subst; try congruence; rewrite H2; reflexivity.
    + intros H. destruct (write_line dstep tt d (dress [] None x)) as [[[[e|] []] y]| |] eqn:E; cbn in H; try discriminate; injection H as <-;
        [now apply pu_error|now apply pu_done|now apply pu_panic].
  - rewrite (put_line_closed d x Ho). split.
    + intros H. inversion H as [x1 H1 H2|e x1 H1 H2|H1 H2|H1 H2|e H1 H2 H3]; subst; try congruence.
      * destruct (wr_timeout x); [rewrite H2; reflexivity|reflexivity].
      * rewrite H2, H3. unfold set_error, with_treplies, with_io, conn_log. cbn. rewrite Ho, H2. reflexivity.
    + intros H. destruct (wr_timeout x) eqn:Et; [|injection H as <-; apply pu_closed; [exact Ho|congruence]].
      destruct (hd None (wr_treplies x)) as [e|] eqn:Eh; cbn [told] in H; injection H as <-.
      * pose proof (pu_refused dstep d x e Ho Et Eh) as P. unfold set_error, with_treplies, with_io, conn_log in *. cbn in *. rewrite Ho, Et. exact P.
      * apply pu_closed; auto.
Qed.

(** ** The function and the relation *)
Definition tell {A} (r : wout A) : option A := match r with WRet a => Some a | _ => None end.
Definition sane {A} (r : wout A) : Prop := match r with WStuck => False | _ => True end.

Section Sound.
Variable again : W -> bytes -> lw -> option (wout (option error * W * lw)).
Hypothesis Ha : forall w d s r, again w d s = Some r -> sane r /\ wwrites dinit dstep w d s (tell r).
Lemma run_wprog_sound : forall p s r, run_wprog dinit dstep again p s = Some r -> sane r /\ wdoes dinit dstep p s (tell r).
Proof.
  induction p as [w v| |w d k IH|d k IH|k IH|lvl k IH|k IH|k IH|h IHh q IH|k IH]; intros [hs x] r H; cbn [run_wprog] in H.
  - injection H as <-. split; [exact Logic.I|constructor].
  - injection H as <-. split; [exact Logic.I|constructor].
  - destruct (again w d _) as [[[[e w'] s']| |]|] eqn:E; try discriminate.
    + destruct (Ha _ _ _ _ E) as [_ Hw]. destruct (IH _ _ _ _ H) as [S0 D]. split; [exact S0|]. eapply wd_line; eauto.
    + injection H as <-. destruct (Ha _ _ _ _ E) as [_ Hw]. split; [exact Logic.I|]. now apply wd_line_panic.
  - unfold w_after in H. cbn [lw_rest lw_hooks] in H. destruct (write dstep d x) as [[a x']| |] eqn:E; try discriminate.
    + destruct (IH _ _ _ H) as [S0 D]. split; [exact S0|]. eapply wd_write; eauto.
    + injection H as <-. split; [exact Logic.I|]. now apply wd_write_panic.
  - unfold w_after in H. cbn [lw_rest lw_hooks] in H. destruct (flush dstep x) as [[a x']| |] eqn:E; try discriminate.
    + destruct (IH _ _ _ H) as [S0 D]. split; [exact S0|]. eapply wd_flush; eauto.
    + injection H as <-. split; [exact Logic.I|]. now apply wd_flush_panic.
  - unfold w_after in H. cbn [lw_rest lw_hooks] in H. destruct (enable_zlib_level dinit dstep lvl x) as [[a x']| |] eqn:E; try discriminate.
    + destruct (IH _ _ _ H) as [S0 D]. split; [exact S0|]. eapply wd_zlib; eauto.
    + injection H as <-. split; [exact Logic.I|]. now apply wd_zlib_panic.
  - unfold w_after in H. cbn [lw_rest lw_hooks] in H. destruct (disable_zlib dstep x) as [[a x']| |] eqn:E; try discriminate.
    + destruct (IH _ _ _ H) as [S0 D]. split; [exact S0|]. eapply wd_unzip; eauto.
    + injection H as <-. split; [exact Logic.I|]. now apply wd_unzip_panic.
  - destruct (IH _ _ _ H) as [S0 D]. split; [exact S0|]. now apply wd_err.
  - destruct (IH _ _ H) as [S0 D]. split; [exact S0|]. now apply wd_hook.
  - unfold w_after in H. cbn [lw_rest lw_hooks] in H. destruct (close_writer dstep x) as [[a x']| |] eqn:E; try discriminate.
    + destruct (IH _ _ _ H) as [S0 D]. split; [exact S0|]. eapply wd_close; eauto.
    + injection H as <-. split; [exact Logic.I|]. now apply wd_close_panic.
Qed.
Lemma run_wprogs_sound : forall hs w d (s : lw) r, run_wprogs dinit dstep again hs w d s = Some r -> sane r /\ wasked dinit dstep hs w d s (tell r).
Proof.
  induction hs as [|h hs IH]; intros w d s r H; cbn [run_wprogs] in H.
  - injection H as <-. split; [exact Logic.I|constructor].
  - destruct (run_wprog dinit dstep again (h w d) s) as [[[[w1 v] s1]| |]|] eqn:E; try discriminate.
    + destruct (run_wprog_sound _ _ _ E) as [_ D]. destruct v as [| |e].
      * destruct (IH _ _ _ _ H) as [S0 A]. split; [exact S0|]. eapply wa_pass; eauto.
      * injection H as <-. split; [exact Logic.I|]. apply wa_stop; [exact D|discriminate].
      * injection H as <-. split; [exact Logic.I|]. apply wa_stop; [exact D|discriminate].
    + injection H as <-. split; [exact Logic.I|]. apply wa_panic. exact (proj2 (run_wprog_sound _ _ _ E)).
    + destruct (run_wprog_sound _ _ _ E) as [[] _].
Qed.
End Sound.
Theorem re_write_sound : forall f w d (s : lw) r, re_write dinit dstep f w d s = Some r -> sane r /\ wwrites dinit dstep w d s (tell r).
Proof.
  induction f as [|f IH]; intros w d [hs x] r H; cbn [re_write] in H; [discriminate|]. cbn [lw_rest lw_hooks] in H.
  destruct (wr_err x) as [e|] eqn:Ee; [injection H as <-; split; [exact Logic.I|now apply ww_before]|].
  destruct (run_wprogs dinit dstep _ hs w d _) as [[[[w' v] [hs' x']]| |]|] eqn:E; try discriminate;
    pose proof (proj2 (run_wprogs_sound _ IH _ _ _ _ _ E)) as A; cbn [tell] in A.
  - destruct v as [| |e].
    + unfold w_after in H. cbn [lw_rest lw_hooks] in H. destruct (put_line dstep d x') as [[e x2]| |] eqn:P; try discriminate; injection H as <-; (split; [exact Logic.I|]).
      * eapply ww_pass; eauto. apply puts_iff. now rewrite P.
      * eapply ww_pass_panic; eauto. apply puts_iff. now rewrite P.
    + injection H as <-. split; [exact Logic.I|]. now apply ww_drop.
    + injection H as <-. split; [exact Logic.I|]. now apply ww_error.
  - injection H as <-. split; [exact Logic.I|]. now apply ww_panic.
Qed.

(** More fuel does not change what is found. *)
Definition finer {A B C D} (a b : A -> B -> C -> option D) : Prop := forall w d s r, a w d s = Some r -> b w d s = Some r.
Lemma run_wprog_more a b : finer a b -> forall p (s : lw) r, run_wprog dinit dstep a p s = Some r -> run_wprog dinit dstep b p s = Some r.
Proof.
  intros F. induction p as [w v| |w d k IH|d k IH|k IH|lvl k IH|k IH|k IH|h IHh q IH|k IH]; intros s r H; cbn [run_wprog] in *; unfold w_after in *; auto;
    repeat match type of H with match ?z with _ => _ end = _ => destruct z as [[? ?]| |]; auto end.
  destruct (a w d s) as [[[[e w'] s']| |]|] eqn:E; try discriminate; rewrite (F _ _ _ _ E); auto.
Qed.
Lemma run_wprogs_more a b : finer a b -> forall hs w d (s : lw) r, run_wprogs dinit dstep a hs w d s = Some r -> run_wprogs dinit dstep b hs w d s = Some r.
Proof.
  intros F. induction hs as [|h hs IH]; intros w d s r H; cbn [run_wprogs] in *; auto.
  destruct (run_wprog dinit dstep a (h w d) s) as [q|] eqn:E; [|discriminate]. rewrite (run_wprog_more a b F _ _ _ E).
  destruct q as [[[w1 [| |e]] s1]| |]; auto.
Qed.
Lemma re_write_more : forall f w d (s : lw) r, re_write dinit dstep f w d s = Some r -> forall g, (f <= g)%nat -> re_write dinit dstep g w d s = Some r.
Proof.
  induction f as [|f IH]; intros w d s r H g L; cbn [re_write] in H; [discriminate|]. destruct g as [|g]; [lia|]. cbn [re_write].
  destruct (wr_err (lw_rest s)); auto. destruct (run_wprogs dinit dstep (re_write dinit dstep f) _ w d s) as [q|] eqn:E; [|discriminate].
  assert (F : finer (re_write dinit dstep f) (re_write dinit dstep g)) by (intros w0 d0 s0 r0 H0; apply (IH _ _ _ _ H0); lia).
  rewrite (run_wprogs_more _ _ F _ _ _ _ _ E). exact H.
Qed.

Definition untell {A} (o : option A) : wout A := match o with Some a => WRet a | None => WPan end.
Scheme wdoes_ind3 := Induction for wdoes Sort Prop
  with wasked_ind3 := Induction for wasked Sort Prop
  with wwrites_ind3 := Induction for wwrites Sort Prop.

Lemma finer_max f g : (f <= g)%nat -> finer (re_write dinit dstep f) (re_write (W := W) dinit dstep g).
Proof. intros L w d s r H. exact (re_write_more _ _ _ _ _ H _ L). Qed.

Theorem re_write_complete : forall w d (s : lw) o, wwrites dinit dstep w d s o -> exists f, re_write dinit dstep f w d s = Some (untell o).
Proof.
  apply (wwrites_ind3 W dst dinit dstep
    (fun p s o _ => exists f, run_wprog dinit dstep (re_write dinit dstep f) p s = Some (untell o))
    (fun hs w d s o _ => exists f, run_wprogs dinit dstep (re_write dinit dstep f) hs w d s = Some (untell o))
    (fun w d s o _ => exists f, re_write dinit dstep f w d s = Some (untell o))).
  - intros. now exists 0%nat.
  - intros. now exists 0%nat.
  - intros w d k s e w' s' o _ [f1 H1] _ [f2 H2]. exists (max f1 f2). cbn [run_wprog].
    rewrite (finer_max f1 (max f1 f2) ltac:(lia) _ _ _ _ H1). cbn [untell]. exact (run_wprog_more _ _ (finer_max f2 (max f1 f2) ltac:(lia)) _ _ _ H2).
  - intros w d k s _ [f H]. exists f. cbn [run_wprog]. rewrite H. reflexivity.
  - intros d k hs x a x' o E _ [f H]. exists f. cbn [run_wprog w_after lw_rest lw_hooks]. rewrite E. exact H.
  - intros d k hs x E. exists 0%nat. cbn [run_wprog w_after lw_rest lw_hooks]. now rewrite E.
  - intros k hs x a x' o E _ [f H]. exists f. cbn [run_wprog w_after lw_rest lw_hooks]. rewrite E. exact H.
  - intros k hs x E. exists 0%nat. cbn [run_wprog w_after lw_rest lw_hooks]. now rewrite E.
  - intros lvl k hs x a x' o E _ [f H]. exists f. cbn [run_wprog w_after lw_rest lw_hooks]. rewrite E. exact H.
  - intros lvl k hs x E. exists 0%nat. cbn [run_wprog w_after lw_rest lw_hooks]. now rewrite E.
  - intros k hs x a x' o E _ [f H]. exists f. cbn [run_wprog w_after lw_rest lw_hooks]. rewrite E. exact H.
  - intros k hs x E. exists 0%nat. cbn [run_wprog w_after lw_rest lw_hooks]. now rewrite E.
  - intros k hs x o _ [f H]. now exists f.
  - intros h q hs x o _ [f H]. now exists f.
  - intros k hs x a x' o E _ [f H]. exists f. cbn [run_wprog w_after lw_rest lw_hooks]. rewrite E. exact H.
  - intros k hs x E. exists 0%nat. cbn [run_wprog w_after lw_rest lw_hooks]. now rewrite E.
  - intros. now exists 0%nat.
  - intros h hs w d s w1 s1 o _ [f1 H1] _ [f2 H2]. exists (max f1 f2). cbn [run_wprogs].
    rewrite (run_wprog_more _ _ (finer_max f1 (max f1 f2) ltac:(lia)) _ _ _ H1). cbn [untell].
    exact (run_wprogs_more _ _ (finer_max f2 (max f1 f2) ltac:(lia)) _ _ _ _ _ H2).
  - intros h hs w d s w1 v s1 _ [f H] N. exists f. cbn [run_wprogs]. rewrite H. cbn [untell]. now destruct v.
  - intros h hs w d s _ [f H]. exists f. cbn [run_wprogs]. now rewrite H.
  - intros w d hs x e E. exists 1%nat. cbn [re_write lw_rest]. now rewrite E.
  - intros w d hs x w' hs' x' e x2 E _ [f H] P. exists (S f). cbn [re_write lw_rest lw_hooks]. rewrite E, H. cbn [untell]. apply puts_iff in P.
    unfold w_after. cbn [lw_rest lw_hooks]. destruct (put_line dstep d x') as [[e1 y]| |]; cbn in P; try discriminate. now injection P as -> ->.
  - intros w d hs x w' hs' x' E _ [f H] P. exists (S f). cbn [re_write lw_rest lw_hooks]. rewrite E, H. cbn [untell]. apply puts_iff in P.
    unfold w_after. cbn [lw_rest lw_hooks]. destruct (put_line dstep d x') as [[e1 y]| |]; cbn in P; try discriminate. reflexivity.
  - intros w d hs x w' s' E _ [f H]. exists (S f). cbn [re_write lw_rest lw_hooks]. now rewrite E, H.
  - intros w d hs x w' e hs' x' E _ [f H]. exists (S f). cbn [re_write lw_rest lw_hooks]. now rewrite E, H.
  - intros w d hs x E _ [f H]. exists (S f). cbn [re_write lw_rest lw_hooks]. now rewrite E, H.
Qed.
Theorem wwrites_once w d (s : lw) o o' : wwrites dinit dstep w d s o -> wwrites dinit dstep w d s o' -> o = o'.
Proof.
  intros H K. destruct (re_write_complete _ _ _ _ H) as [f Hf]. destruct (re_write_complete _ _ _ _ K) as [g Hg].
  pose proof (re_write_more _ _ _ _ _ Hf (max f g) ltac:(lia)) as A. pose proof (re_write_more _ _ _ _ _ Hg (max f g) ltac:(lia)) as B0.
  rewrite A in B0. destruct o, o'; cbn in B0; congruence.
Qed.

(** ** Errors stay *)
Theorem re_write_sticky f w d (s : lw) e w' s' : re_write dinit dstep f w d s = Some (WRet (Some e, w', s')) -> wr_err (lw_rest s') = Some e.
Proof.
  intros H. apply re_write_sound in H. destruct H as [_ H]. cbn in H. inversion H as [ | ? ? ? ? ? ? ? ? x2 He Hq Hp | | | | ]; subst; cbn [lw_rest]; auto.
  inversion Hp; subst; reflexivity.
Qed.

(** ** Callbacks that call nothing *)
Lemma run_quiet again hs : forall w d (s : lw), run_wprogs dinit dstep again (map quiet hs) w d s = let '(w', v) := run_hooks hs w d in Some (WRet (w', v, s)).
Proof.
  induction hs as [|h hs IH]; intros w d s; cbn [map run_wprogs run_hooks]; [reflexivity|]. unfold quiet at 1.
  destruct (h w d) as [w1 [| |e]]; cbn [run_wprog]; [apply IH|reflexivity..].
Qed.
Theorem re_write_quiet f (hs : list (hook W)) w d (x : wr) : (wr_err x = None -> wr_open x = true) ->
  match write_line dstep w d (dress hs (wr_err x) x) with
  | WRet (e, w', y) => exists x', re_write dinit dstep (S f) w d (mkLwriter (map quiet hs) x) = Some (WRet (e, w', mkLwriter (map quiet hs) x')) /\ y = dress hs (wr_err x') x'
  | WPan => re_write dinit dstep (S f) w d (mkLwriter (map quiet hs) x) = Some WPan
  | WStuck => re_write dinit dstep (S f) w d (mkLwriter (map quiet hs) x) = None
  end.
Proof.
  intros Ho. unfold write_line. cbn [re_write lw_rest lw_hooks dress wr_err wr_hooks]. destruct (wr_err x) as [e|] eqn:Ee.
  - exists x. now rewrite Ee.
  - rewrite run_quiet. destruct (run_hooks hs w d) as [w' [| |e]].
    + fold (dress hs None x). fold (body dstep W d (dress hs None x)). rewrite body_dress. unfold w_after. cbn [lw_rest lw_hooks]. rewrite (put_line_open d x (Ho eq_refl)).
      assert (G : match body dstep unit d x with WRet (None, y) => wr_err y = None | WRet (Some e, y) => wr_err y = Some e | _ => True end).
      { rewrite body_bare. destruct (write_line _ _ _ _) as [[[[e|] []] y]| |]; auto. }
      destruct (body dstep unit d x) as [[[e|] y]| |]; try reflexivity; exists y; (split; [reflexivity|]); now rewrite G.
    + exists x. now rewrite Ee.
    + exists (set_error e x). split; reflexivity.
Qed.

(** ** A callback that always writes a line never returns *)
Theorem re_write_recursion (g : W -> bytes -> bytes) k (x : wr) hs : wr_err x = None -> forall f w d,
  re_write dinit dstep f w d (mkLwriter ((fun w d => QLine w (g w d) (k w d)) :: hs) x) = None.
Proof.
  intros E. induction f as [|f IH]; intros w d; [reflexivity|]. cbn [re_write lw_rest lw_hooks run_wprogs run_wprog]. rewrite E, IH. reflexivity.
Qed.
End Facts.

(** ** Scripts *)
Section Script.
Context {dst : Type} (dinit : Z -> dst) (dstep : dst -> dop -> dst * list bytes).
Notation wr := (writer unit dst).
(** A writer without callbacks of its own, closed only after an error. *)
Definition sound (x : wr) : Prop := wr_hooks x = [] /\ (wr_err x = None -> wr_open x = true).
Definition sounds {A} (r : wout (A * wr)) : Prop := match r with WRet (_, y) => sound y | _ => True end.
Lemma frame_sound (x y : wr) : frame x y -> sound x -> sound y.
Proof. intros (F1&F2&F3&F4&F5&F6&F7&F8&F9) [H1 H2]. split; [congruence|]. rewrite F8, F3. exact H2. Qed.
Lemma cur_write_sound p (x : wr) : sound x -> sounds (cur_write dstep p x).
Proof. intros H. destruct (cur_write dstep p x) as [[[n e] y]| |] eqn:E; cbn; auto. apply cur_write_frame in E. exact (frame_sound _ _ (proj1 E) H). Qed.
Lemma zlib_do_sound o (x : wr) : sound x -> sounds (zlib_do dstep o x).
Proof. intros H. unfold zlib_do. destruct (wr_zw x); [|exact Logic.I]. destruct (zw_do dstep o _ _) as [[e z'] c']. exact H. Qed.
Lemma bw_flush_sound (x : wr) : sound x -> sounds (bw_flush dstep x).
Proof. intros H. destruct (bw_flush dstep x) as [[e y]| |] eqn:E; cbn; auto. apply bw_flush_frame in E. exact (frame_sound _ _ (proj1 E) H). Qed.
Lemma bw_write_sound p (x : wr) : sound x -> sounds (bw_write dstep p x).
Proof. intros H. unfold bw_write. destruct (bw_loop dstep _ p x) as [[e y]| |] eqn:E; cbn; auto. apply bw_loop_frame in E. exact (frame_sound _ _ (proj1 E) H). Qed.
Lemma timed_sound b (x : wr) : (forall y, sound y -> sounds (b y)) -> sound x -> sounds (timed b x).
Proof.
  intros Hb H. unfold timed. destruct (wr_timeout x); [|now apply Hb]. cbv zeta. destruct (hd None (wr_treplies x)); [split; [apply H|discriminate]|].
  match goal with |- context [b ?z] => specialize (Hb z); destruct (b z) as [[e y]| |] end; cbn in *; auto.
Qed.
Lemma checked_sound r k : sounds r -> (forall y, sound y -> sounds (k y)) -> sounds (checked (W := unit) (dst := dst) r k).
Proof. intros Hr Hk. destruct r as [[[e|] y]| |]; cbn in *; auto. split; [apply Hr|discriminate]. Qed.
Lemma flush_sound (x : wr) : sound x -> sounds (flush dstep x).
Proof.
  intros H. unfold flush. destruct (wr_err x); [exact H|]. apply timed_sound; [|exact H]. intros y Hy. apply checked_sound; [now apply bw_flush_sound|].
  intros z Hz. destruct (wr_zlib_on z); [|exact Hz]. apply checked_sound; [now apply zlib_do_sound|]. intros u Hu. exact Hu.
Qed.
Lemma write_sound p (x : wr) : sound x -> sounds (write dstep p x).
Proof.
  intros H. unfold write. destruct (wr_err x); [exact H|]. pose proof (flush_sound x H) as F. pose proof (cur_write_sound p x H) as C.
  destruct (wr_buf x); [exact C|]. destruct (flush dstep x) as [[[e1|] z]| |]; cbn in *; auto. now apply cur_write_sound.
Qed.
Lemma enable_sound lvl (x : wr) : sound x -> sounds (enable_zlib_level dinit dstep lvl x).
Proof.
  intros H. unfold enable_zlib_level. destruct (wr_err x); [exact H|]. destruct (wr_zlib_on x); [exact H|]. pose proof (flush_sound x H) as F.
  destruct (flush dstep x) as [[[e1|] z]| |]; auto. cbv zeta. destruct (_ && _)%bool; exact F.
Qed.
Lemma disable_sound (x : wr) : sound x -> sounds (disable_zlib dstep x).
Proof.
  intros H. unfold disable_zlib. destruct (wr_err x); [exact H|]. destruct (wr_zlib_on x); [|exact H]. apply checked_sound; [now apply bw_flush_sound|].
  intros y1 H1. apply checked_sound; [now apply zlib_do_sound|]. intros y2 H2. exact H2.
Qed.
Lemma zlib_do_err o (x : wr) e y : zlib_do dstep o x = WRet (e, y) -> wr_err y = wr_err x.
Proof. unfold zlib_do. destruct (wr_zw x); [|discriminate]. destruct (zw_do dstep o _ _) as [[e1 z'] c']. intros E. now injection E as <- <-. Qed.
Lemma close_sound (x : wr) : sounds (close_writer dstep x).
Proof.
  unfold close_writer. destruct (wr_open x); [|exact Logic.I]. destruct (bw_flush dstep x) as [[l w1]| |]; try exact Logic.I. cbv zeta.
  match goal with |- context [wr_zlib_on ?z] => set (w2 := z) end.
  assert (N : wr_err w2 <> None) by (subst w2; destruct (wr_err w1) eqn:E; [congruence|discriminate]).
  destruct (wr_zlib_on w2); [|split; [reflexivity|intros E; now elim N]].
  destruct (zlib_do dstep DClose w2) as [[e w3]| |] eqn:E; try exact Logic.I. apply zlib_do_err in E. split; [reflexivity|]. cbn. congruence.
Qed.
Lemma line_sound d (x : wr) : sound x -> sounds (write_line dstep tt d x).
Proof.
  intros H. unfold write_line. rewrite (proj1 H). cbn [run_hooks]. destruct (wr_err x); [exact H|].
  pose proof (timed_sound (fun w1 => checked (bw_write dstep d w1) (fun w2 => WRet (None, w2))) x) as T.
  destruct (timed _ x) as [[e1 z]| |]; try exact Logic.I. apply T; [|exact H]. intros v Hv. apply checked_sound; [now apply bw_write_sound|]. intros q Hq. exact Hq.
Qed.

(** A line that passes. *)
Lemma put_line_line d (x : wr) : sound x -> wr_err x = None -> write_line dstep tt d x =
  match put_line dstep d x with WRet (e, y) => WRet (e, tt, y) | WPan => WPan | WStuck => WStuck end.
Proof.
  intros H E. rewrite (put_line_open dstep d x (proj2 H E)). unfold write_line. rewrite E, (proj1 H). reflexivity.
Qed.
Lemma nested_line f hs d (x : wr) : sound x -> run_wprogs dinit dstep (re_write dinit dstep f) hs true d (mkLwriter hs x) = Some (WRet (true, HPass, mkLwriter hs x)) ->
  re_write dinit dstep (S f) true d (mkLwriter hs x) =
    match write_line dstep tt d x with WRet (e, _, y) => Some (WRet (e, true, mkLwriter hs y)) | WPan => Some WPan | WStuck => None end.
Proof.
  intros H R. cbn [re_write lw_rest lw_hooks]. destruct (wr_err x) as [e|] eqn:E; [unfold write_line; now rewrite E|].
  rewrite R, (put_line_line d x H E). unfold w_after. cbn [lw_rest lw_hooks]. now destruct (put_line dstep d x) as [[e y]| |].
Qed.
Lemma scripted_makes f v O V : forall os hs x, sound x -> hs = [script O V] \/ hs = [] ->
  run_wprog dinit dstep (re_write dinit dstep (S f)) (scripted os v) (mkLwriter hs x) =
  match makes dinit dstep os x with
  | WRet x' => Some (WRet (false, v, mkLwriter (if closes os then [] else hs) x'))
  | WPan => Some WPan
  | WStuck => None
  end.
Proof.
  induction os as [|o os IH]; intros hs x H C; [reflexivity|]. destruct o as [d|p| |lvl| |]; cbn [scripted makes run_op run_wprog closes existsb orb]; fold (closes os).
  - rewrite nested_line; [|exact H|destruct C as [-> | ->]; reflexivity]. pose proof (line_sound d x H) as L.
    destruct (write_line dstep tt d x) as [[[e []] y]| |]; try reflexivity. now apply IH.
  - unfold w_after. cbn [lw_rest lw_hooks]. pose proof (write_sound p x H) as L. destruct (write dstep p x) as [[[n e] y]| |]; try reflexivity. now apply IH.
  - unfold w_after. cbn [lw_rest lw_hooks]. pose proof (flush_sound x H) as L. destruct (flush dstep x) as [[e y]| |]; try reflexivity. now apply IH.
  - unfold w_after. cbn [lw_rest lw_hooks]. pose proof (enable_sound lvl x H) as L. destruct (enable_zlib_level dinit dstep lvl x) as [[e y]| |]; try reflexivity. now apply IH.
  - unfold w_after. cbn [lw_rest lw_hooks]. pose proof (disable_sound x H) as L. destruct (disable_zlib dstep x) as [[e y]| |]; try reflexivity. now apply IH.
  - unfold w_after. cbn [lw_rest lw_hooks]. pose proof (close_sound x) as L. destruct (close_writer dstep x) as [[e y]| |]; try reflexivity.
    rewrite IH by auto. now destruct (closes os).
Qed.
Lemma makes_sound : forall os x y, sound x -> makes dinit dstep os x = WRet y -> sound y.
Proof.
  induction os as [|o os IH]; intros x y H M; cbn [makes] in M; [now injection M as <-|].
  assert (G : forall n e u z, run_op dinit dstep tt o x = WRet (n, e, u, z) -> sound z).
  { intros n e u z R. destruct o as [d|p| |lvl| |]; cbn [run_op] in R.
    - pose proof (line_sound d x H) as L. destruct (write_line dstep tt d x) as [[[e1 u1] z1]| |]; try discriminate. injection R as <- <- <- <-. exact L.
    - pose proof (write_sound p x H) as L. destruct (write dstep p x) as [[[n1 e1] z1]| |]; try discriminate. injection R as <- <- <- <-. exact L.
    - pose proof (flush_sound x H) as L. destruct (flush dstep x) as [[e1 z1]| |]; try discriminate. injection R as <- <- <- <-. exact L.
    - pose proof (enable_sound lvl x H) as L. destruct (enable_zlib_level dinit dstep lvl x) as [[e1 z1]| |]; try discriminate. injection R as <- <- <- <-. exact L.
    - pose proof (disable_sound x H) as L. destruct (disable_zlib dstep x) as [[e1 z1]| |]; try discriminate. injection R as <- <- <- <-. exact L.
    - pose proof (close_sound x) as L. destruct (close_writer dstep x) as [[e1 z1]| |]; try discriminate. injection R as <- <- <- <-. exact L. }
  destruct (run_op dinit dstep tt o x) as [[[[n e] u] z]| |]; try discriminate. eapply IH; [|exact M]. eapply G. reflexivity.
Qed.
(** One line with the callback. *)
Theorem script_line f O V d x : sound x -> wr_err x = None ->
  match makes dinit dstep (O d) x with
  | WPan => re_write dinit dstep (S (S f)) false d (mkLwriter [script O V] x) = Some WPan
  | WStuck => re_write dinit dstep (S (S f)) false d (mkLwriter [script O V] x) = None
  | WRet x' =>
      let hs := if closes (O d) then [] else [script O V] in
      match V d with
      | HDrop => re_write dinit dstep (S (S f)) false d (mkLwriter [script O V] x) = Some (WRet (None, false, mkLwriter hs x'))
      | HErr e => re_write dinit dstep (S (S f)) false d (mkLwriter [script O V] x) = Some (WRet (Some e, false, mkLwriter hs (set_error e x')))
      | HPass => wr_err x' = None ->
          re_write dinit dstep (S (S f)) false d (mkLwriter [script O V] x) =
          match write_line dstep tt d x' with
          | WRet (e, _, y) => Some (WRet (e, false, mkLwriter hs y))
          | WPan => Some WPan
          | WStuck => None
          end
      end
  end.
Proof.
  intros H E. assert (R : re_write dinit dstep (S (S f)) false d (mkLwriter [script O V] x) =
    match match makes dinit dstep (O d) x with
          | WRet x' => Some (WRet (false, V d, mkLwriter (if closes (O d) then [] else [script O V]) x'))
          | WPan => Some WPan
          | WStuck => None
          end with
    | None => None
    | Some (WRet (w', HErr e, s')) => Some (WRet (Some e, w', mkLwriter (lw_hooks s') (set_error e (lw_rest s'))))
    | Some (WRet (w', HDrop, s')) => Some (WRet (None, w', s'))
    | Some (WRet (w', HPass, s')) => w_after s' (put_line dstep d (lw_rest s')) (fun e s2 => Some (WRet (e, w', s2)))
    | Some WPan => Some WPan
    | Some WStuck => None
    end).
  { rewrite <- (scripted_makes f (V d) O V (O d) [script O V] x H (or_introl eq_refl)).
    change (re_write dinit dstep (S (S f)) false d (mkLwriter [script O V] x)) with
      (match wr_err x with
       | Some e => Some (WRet (Some e, false, mkLwriter [script O V] x))
       | None => match run_wprogs dinit dstep (re_write dinit dstep (S f)) [script O V] false d (mkLwriter [script O V] x) with
          | None => None
          | Some (WRet (w', HErr e, s')) => Some (WRet (Some e, w', mkLwriter (lw_hooks s') (set_error e (lw_rest s'))))
          | Some (WRet (w', HDrop, s')) => Some (WRet (None, w', s'))
          | Some (WRet (w', HPass, s')) => w_after s' (put_line dstep d (lw_rest s')) (fun e s2 => Some (WRet (e, w', s2)))
          | Some WPan => Some WPan
          | Some WStuck => None
          end
       end).
    rewrite E. cbn [run_wprogs]. change (script O V false d) with (scripted (O d) (V d)).
    destruct (run_wprog dinit dstep (re_write dinit dstep (S f)) (scripted (O d) (V d)) (mkLwriter [script O V] x)) as [[[[w1 [| |e1]] s1]| |]|]; reflexivity. }
  pose proof (makes_sound (O d) x) as S0. destruct (makes dinit dstep (O d) x) as [x'| |]; [|exact R|exact R]. cbv zeta. specialize (S0 x' H eq_refl).
  destruct (V d) as [| |e]; [|exact R|exact R]. intros E'. rewrite R. unfold w_after. cbn [lw_rest lw_hooks].
  rewrite (put_line_line d x' S0 E'). now destruct (put_line dstep d x') as [[e y]| |].
Qed.

(** ** Lines before each line *)
Lemma set_same e (x : wr) : wr_err x = Some e -> set_error e x = x.
Proof. intros H. unfold set_error. rewrite <- H. now destruct x. Qed.
Lemma line_fails d (x : wr) e u y : sound x -> write_line dstep tt d x = WRet (Some e, u, y) -> wr_err y = Some e.
Proof.
  intros H. unfold write_line. rewrite (proj1 H). cbn [run_hooks]. destruct (wr_err x) eqn:E; [intros K; injection K as <- _ <-; exact E|].
  fold (body dstep unit d x). rewrite body_bare. destruct (write_line _ _ _ _) as [[[[e1|] u1] y1]| |]; intros K; try discriminate. now injection K as <- _ <-.
Qed.
Lemma line_fine d (x : wr) u y : sound x -> wr_err x = None -> write_line dstep tt d x = WRet (None, u, y) -> wr_err y = None.
Proof.
  intros H E. unfold write_line. rewrite (proj1 H). cbn [run_hooks]. rewrite E.
  fold (body dstep unit d x). rewrite body_bare, E. destruct (write_line _ _ _ _) as [[[[e1|] u1] y1]| |]; intros K; try discriminate. now injection K as _ <-.
Qed.
Lemma before_it_run f pre : forall ds x, sound x -> wr_err x = None ->
  run_wprog dinit dstep (re_write dinit dstep (S f)) (before_it ds) (mkLwriter [inserting pre] x) =
  match lines_until dstep ds x with
  | WRet (None, y) => Some (WRet (false, HPass, mkLwriter [inserting pre] y))
  | WRet (Some e, y) => Some (WRet (false, HErr e, mkLwriter [inserting pre] y))
  | WPan => Some WPan
  | WStuck => None
  end.
Proof.
  induction ds as [|d ds IH]; intros x H E; [reflexivity|]. cbn [before_it run_wprog lines_until].
  rewrite nested_line; [|exact H|reflexivity]. pose proof (line_sound d x H) as L. pose proof (fun u y => line_fine d x u y H E) as F.
  destruct (write_line dstep tt d x) as [[[[e|] u] y]| |]; try reflexivity. apply IH; [exact L|]. eapply F. reflexivity.
Qed.
Lemma lines_until_app a : forall b (x : wr), lines_until dstep (a ++ b) x =
  match lines_until dstep a x with WRet (None, y) => lines_until dstep b y | r => r end.
Proof.
  induction a as [|d a IH]; intros b x; cbn [app lines_until]; [reflexivity|]. destruct (write_line dstep tt d x) as [[[[e|] u] y]| |]; auto.
Qed.
Lemma lines_until_state ds : forall (x : wr), sound x -> wr_err x = None ->
  match lines_until dstep ds x with WRet (e, y) => sound y /\ wr_err y = e | _ => True end.
Proof.
  induction ds as [|d ds IH]; intros x H E; cbn [lines_until]; [auto|]. pose proof (line_sound d x H) as L. pose proof (fun u y => line_fine d x u y H E) as F.
  pose proof (fun e u y => line_fails d x e u y H) as G. destruct (write_line dstep tt d x) as [[[[e|] u] y]| |]; auto.
  - split; [exact L|]. eapply G. reflexivity.
  - apply IH; [exact L|]. eapply F. reflexivity.
Qed.
Theorem inserting_line f pre d x : sound x -> wr_err x = None ->
  re_write dinit dstep (S (S f)) false d (mkLwriter [inserting pre] x) =
  match lines_until dstep (pre d ++ [d]) x with
  | WRet (e, y) => Some (WRet (e, false, mkLwriter [inserting pre] y))
  | WPan => Some WPan
  | WStuck => None
  end.
Proof.
  intros H E. change (re_write dinit dstep (S (S f)) false d (mkLwriter [inserting pre] x)) with
      (match wr_err x with
       | Some e => Some (WRet (Some e, false, mkLwriter [inserting pre] x))
       | None => match run_wprogs dinit dstep (re_write dinit dstep (S f)) [inserting pre] false d (mkLwriter [inserting pre] x) with
          | None => None
          | Some (WRet (w', HErr e, s')) => Some (WRet (Some e, w', mkLwriter (lw_hooks s') (set_error e (lw_rest s'))))
          | Some (WRet (w', HDrop, s')) => Some (WRet (None, w', s'))
          | Some (WRet (w', HPass, s')) => w_after s' (put_line dstep d (lw_rest s')) (fun e s2 => Some (WRet (e, w', s2)))
          | Some WPan => Some WPan
          | Some WStuck => None
          end
       end).
  rewrite E. cbn [run_wprogs]. change (inserting pre false d) with (before_it (pre d)). rewrite (before_it_run f pre (pre d) x H E), lines_until_app.
  pose proof (lines_until_state (pre d) x H E) as T. destruct (lines_until dstep (pre d) x) as [[[e|] y]| |]; try reflexivity.
  - cbn [lw_rest lw_hooks]. now rewrite (set_same e y (proj2 T)).
  - cbn [lines_until]. unfold w_after. cbn [lw_rest lw_hooks]. rewrite (put_line_line d y (proj1 T) (proj2 T)). now destruct (put_line dstep d y) as [[[e|] z]| |].
Qed.
End Script.
