(** The calls of the line reader have one result: more steps do not change it. *)
From Verif Require Import Base LineReader.

Section Fuel.
Context {W Z : Type} (act : Z -> zaction Z) (zinit : Z).
Notation rd := (reader W Z).

Lemma zread_more : forall f g n z o c x, f <= g -> zread act f n z o c = Some x -> zread act g n z o c = Some x.
Proof.
  induction f as [|f IH]; intros g n z o c x L E.
  - destruct g; [exact E|]; cbn [zread] in E |- *; destruct (z_pend z); [|exact E]; destruct (z_st z); [discriminate|exact E].
  - destruct g as [|g]; [lia|]. cbn [zread] in E |- *. destruct (z_pend z); [|exact E]. destruct (z_st z) as [st|e]; [|exact E].
    destruct (act st); try exact E.
    + destruct (orig_read_byte o c) as [[[b|e|] o'] c']; try exact E. apply (IH g); [lia|exact E].
    + destruct (orig_read_full n0 o c) as [[[e|d] o'] c']; try exact E. apply (IH g); [lia|exact E].
    + apply (IH g); [lia|exact E].
Qed.
Lemma zopen_more : forall f g st o c x, f <= g -> zopen act f st o c = Some x -> zopen act g st o c = Some x.
Proof.
  induction f as [|f IH]; intros g st o c x L E; [discriminate|]. destruct g as [|g]; [lia|]. cbn [zopen] in E |- *. destruct (act st); try exact E.
  - destruct (orig_read_byte o c) as [[[b|e|] o'] c']; try exact E. apply (IH g); [lia|exact E].
  - destruct (orig_read_full n o c) as [[[e|d] o'] c']; try exact E. apply (IH g); [lia|exact E].
Qed.
Lemma under_more f g n (r : rd) x : f <= g -> under_read act f n r = Some x -> under_read act g n r = Some x.
Proof.
  intros L E. unfold under_read in *. destruct (rd_zcur r); [|exact E]. destruct (zread act f n (rd_z r) (rd_orig r) (rd_conn r)) as [y|] eqn:Z1; [|discriminate].
  rewrite (zread_more f g _ _ _ _ _ L Z1). exact E.
Qed.
Lemma scan_more f g (r : rd) x : f <= g -> scan act f r = Some x -> scan act g r = Some x.
Proof.
  intros L E. unfold scan in *. destruct (cur_buf r); [|exact E]. destruct (under_read act f read_buf r) as [y|] eqn:U; [|discriminate].
  rewrite (under_more f g _ _ _ L U). exact E.
Qed.
Lemma loop_more : forall f g (w : W) line (r : rd) x, f <= g -> read_loop act f w line r = Some x -> read_loop act g w line r = Some x.
Proof.
  induction f as [|f IH]; intros g w line r x L E; [discriminate|]. destruct g as [|g]; [lia|]. cbn [read_loop] in E |- *.
  destruct (_ && _)%bool; [exact E|]. destruct (scan act f r) as [[o r']|] eqn:S; [|discriminate]. rewrite (scan_more f g _ _ (le_S_n _ _ L) S).
  destruct o as [[pref more]|e|]; [| |exact E].
  - destruct more; [apply (IH g); [lia|exact E]|]. destruct (run_hooks (rd_hooks r') w (line ++ pref)) as [w' v]. destruct v; try exact E. apply (IH g); [lia|exact E].
  - destruct (_ && _)%bool; [|exact E]. apply (IH g); [lia|exact E].
Qed.
Lemma line_more f g (w : W) (r : rd) x : f <= g -> read_line act f w r = Some x -> read_line act g w r = Some x.
Proof. unfold read_line. destruct (rd_open r); [apply loop_more|auto]. Qed.
Lemma cur_more f g n (r : rd) x : f <= g -> cur_read act f n r = Some x -> cur_read act g n r = Some x.
Proof. unfold cur_read. destruct (cur_buf r); [apply under_more|auto]. Qed.
Lemma read_more f g n (r : rd) x : f <= g -> reader_read act f n r = Some x -> reader_read act g n r = Some x.
Proof.
  intros L E. unfold reader_read in *. destruct (rd_open r); [|exact E]. destruct (cur_read act f n r) as [y|] eqn:C; [|discriminate].
  rewrite (cur_more f g _ _ _ L C). destruct y as [[[d [e|]]|e|] r1]; [|exact E..]. destruct (_ && _)%bool; [|exact E]. destruct d; [|exact E].
  now apply (cur_more f g).
Qed.
Lemma zlib_more f g (r : rd) x : f <= g -> enable_zlib act zinit f r = Some x -> enable_zlib act zinit g r = Some x.
Proof.
  intros L E. unfold enable_zlib in *. destruct (rd_open r); [|exact E]. destruct (rd_zlib_on r); [exact E|]. cbv zeta in *.
  destruct (zopen act f _ _ _) as [y|] eqn:O; [|discriminate]. rewrite (zopen_more f g _ _ _ _ L O). exact E.
Qed.
End Fuel.
