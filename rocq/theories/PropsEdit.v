(** Property theorems C130: line callbacks of lineproto.Writer that write to the line.
    Specification: SpecEdit.v.  Proofs: LineEditFacts.v.

    [dinit], [dstep] are an arbitrary compressor, [W] an arbitrary type of callback state. *)
From Verif Require Import Base BaseFacts LineReader SpecLine LineWriter SpecWriter LineEdit SpecEdit LineEditFacts PropsLineWriter.

(** ** C130 *)

(** The line that goes to the connection, and that the caller has in its slice afterwards, is
    the line as the callbacks have left it; a line that is dropped or refused is changed all the
    same, but not written. *)
Theorem C130_line {W dst} dstep (hs : list (edit_hook W)) s d s1 d1 v (w : writer W dst) :
  wr_err w = None -> wr_hooks w = [] -> everdict hs s d s1 d1 v ->
  length d1 = length d /\
  edit_line dstep hs s d w =
    match v with
    | HErr e => WRet (Some e, s1, d1, set_error e w)
    | HDrop => WRet (None, s1, d1, w)
    | HPass => match write_line dstep s d1 w with WRet (e, _, w') => WRet (e, s1, d1, w') | WPan => WPan | WStuck => WStuck end
    end.
Proof. intros He Hh H. split; [exact (everdict_length _ _ _ _ _ _ H)|exact (edited_line dstep hs s d s1 d1 v w He Hh H)]. Qed.
Print Assumptions C130_line.

(** There is always exactly one outcome of the callbacks, so the theorem above covers every call. *)
Theorem C130_asked {W} (hs : list (edit_hook W)) s d :
  exists s1 d1 v, everdict hs s d s1 d1 v /\ (forall s2 d2 v2, everdict hs s d s2 d2 v2 -> s2 = s1 /\ d2 = d1 /\ v2 = v).
Proof.
  destruct (run_edits hs s d) as [[s1 d1] v] eqn:E. exists s1, d1, v. split; [exact (run_edits_verdict _ _ _ _ _ _ E)|].
  intros s2 d2 v2 H. apply verdict_run_edits in H. rewrite E in H. now injection H as -> -> ->.
Qed.
Print Assumptions C130_asked.

(** After an error the callbacks are not asked and the slice is left alone. *)
Theorem C130_failed {W dst} dstep (hs : list (edit_hook W)) s d e (w : writer W dst) :
  wr_err w = Some e -> edit_line dstep hs s d w = WRet (Some e, s, d, w).
Proof. intros H. unfold edit_line. now rewrite H. Qed.
Print Assumptions C130_failed.

(** Any steps of a caller with several slices: the lines as left by the callbacks are what the
    connection gets, in order and with nothing in between. *)
Theorem C130_written {W dst} (dinit : Z -> dst) dstep (hs : list (edit_hook W)) script size tmo s0 mem0 h s mem (w : writer W dst) :
  edit_calls dstep hs s0 mem0 (fresh script size [] tmo) h s mem w -> wr_err w = None ->
  exists ls pending, sent hs s0 mem0 h ls s mem /\ concat ls = delivered (cn_trace (wr_conn w)) ++ pending /\
    (forall h' e, h = h' ++ [(EFlush, e)] -> pending = []).
Proof. exact (edits_arrive dinit dstep hs script size tmo s0 mem0 h s mem w). Qed.
Print Assumptions C130_written.

(** With callbacks that only look this is the writer of C09-C16. *)
Theorem C130_looking {W dst} dstep (a b : writer W dst) s d :
  same_but_callbacks a b -> alike_lines d (edit_line dstep (map looking (wr_hooks b)) s d a) (write_line dstep s d b).
Proof. exact (looking_line dstep a b s d). Qed.
Print Assumptions C130_looking.

(** A callback that swaps "a" and "b" at the start of the line, one
    that counts, drops what starts with "x" and refuses what starts with "e". *)
Definition swapping (n : nat) (d : bytes) : (nat * bytes) * hook_res :=
  match d with
  | c :: _ => ((n, if beq c "a"%byte then B "b" else if beq c "b"%byte then B "a" else []), HPass)
  | [] => ((n, B "too long"), HPass)
  end.
(** The second one. *)
Definition counting (n : nat) (d : bytes) : (nat * bytes) * hook_res :=
  ((S n, []), match d with c :: _ => if beq c "x"%byte then HDrop else if beq c "e"%byte then HErr (EText "refused") else HPass | [] => HPass end).

(** Writing one slice twice: the second line is not the first. *)
Theorem C130_twice_refuted : exists (w : writer nat bytes) mem,
  edit_calls store [swapping] 0 [B "abc|"] (fresh [] 8 [] None) [(ELine 0, None); (ELine 0, None); (EFlush, None)] 0 mem w /\
  wr_err w = None /\ delivered (cn_trace (wr_conn w)) = B "bbc|abc|".
Proof. do 2 eexists. split; [repeat (eapply ec_cons; [vm_compute; reflexivity|]); apply ec_nil|]. split; vm_compute; reflexivity. Qed.
Print Assumptions C130_twice_refuted.

Example C130_case : exists (w : writer nat bytes) mem,
  edit_calls store [swapping; counting] 0 [B "a1|"; B "x2|"; B ""] (fresh [] 4 [] None)
    [(ELine 0, None); (ELine 1, None); (EFill 1 (B "b3|"), None); (ELine 1, None); (ELine 2, None); (ELine 0, None); (EFlush, None)] 5 mem w /\
  wr_err w = None /\ mem = [B "a1|"; B "a3|"; B ""] /\ delivered (cn_trace (wr_conn w)) = B "b1|a3|a1|".
Proof. do 2 eexists. split; [repeat (eapply ec_cons; [vm_compute; reflexivity|]); apply ec_nil|]. split; [|split]; vm_compute; reflexivity. Qed.
(** A refused line. *)
Example C130_refused : exists w : writer nat bytes,
  edit_line store [swapping; counting; swapping] 3 (B "e|") (fresh [] 4 [] None) = WRet (Some (EText "refused"), 4, B "e|", w) /\ wr_err w = Some (EText "refused") /\
  edit_line store [swapping; counting; swapping] 4 (B "a|") w = WRet (Some (EText "refused"), 4, B "a|", w).
Proof. eexists. split; [vm_compute; reflexivity|]. split; vm_compute; reflexivity. Qed.
(** Callbacks that look. *)
Example C130_looks : let b : writer nat bytes := fresh [] 4 [fun n d => (S n, HPass)] None in
  wr_hooks b <> [] /\ same_but_callbacks (fresh [] 4 [] None) b.
Proof. cbv zeta. split; [discriminate|now repeat split]. Qed.
