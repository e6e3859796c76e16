(** Property theorems C09-C16 and C81: the line writer of lineproto/writer.go and its
    combination with the reader.  Specifications: SpecWriter.v, SpecLine.v.
    Proofs: LineWriterFacts.v, LineWriterOps.v, LineWriterFinal.v, LineTransport.v.

    [dinit], [dstep] are an arbitrary compressor, [W] an arbitrary type of hook state. *)
From Verif Require Import Base BaseFacts LineReader SpecLine LineReaderStream LineReaderOps LineWriter SpecWriter
  LineWriterFacts LineWriterOps LineWriterFinal LineTransport.

(** A toy compressor for the examples: stores everything written and outputs it with a
    length byte when closed. *)
Definition store_init (lvl : Z) : bytes := [].
Definition store (d : bytes) (o : dop) : bytes * list bytes :=
  match o with DWrite p => (d ++ p, []) | DFlush => (d, []) | DClose => ([], [n2b (N.of_nat (length d)) :: d]) end.

(** Running a list of operations; [None] if one of them panics. *)
Fixpoint run_ops (s : unit) (ops : list wop) (w : writer unit bytes) : option (list (nat * option error) * writer unit bytes) :=
  match ops with
  | [] => Some ([], w)
  | o :: t => match run_op store_init store s o w with
              | WRet (n, e, s', w') =>
                  match run_ops s' t w' with Some (rs, w2) => Some ((n, e) :: rs, w2) | None => None end
              | _ => None
              end
  end.
Definition out_of (x : option (list (nat * option error) * writer unit bytes)) : option (list (nat * option error) * bytes) :=
  match x with Some (rs, w) => Some (rs, delivered (cn_trace (wr_conn w))) | None => None end.

(** Histories of the examples are built step by step. *)
Ltac hist :=
  first [apply h_nil
        |eapply h_step; [hist|vm_compute; reflexivity|first [eapply ac_pass; constructor|constructor]]].

(** ** C09: everything accepted is delivered once and in order. *)

Theorem C09_in_order {W dst} dinit dstep script size (hs : list (hook W)) tmo s0 h acc x s (w : writer W dst) :
  history dinit dstep (fresh script size hs tmo) s0 h acc x s w -> Forall (fun r => data_op (fst r)) h -> wr_err w = None ->
  exists pending, acc = delivered (cn_trace (wr_conn w)) ++ pending /\
    (forall h' n, h = h' ++ [(OFlush, (n, None))] -> pending = []).
Proof. exact (in_order dinit dstep script size hs tmo s0 h acc x s w). Qed.
Print Assumptions C09_in_order.

(** Buffer of 4 bytes, lines shorter and longer than it, a direct write in between. *)
Definition C09_ops : list wop := [OLine (B "ab|"); OLine (B "cd|"); OWrite (B "xyz"); OLine (B "0123456789|"); OLine (B "e|"); OFlush].
Example C09_instance :
  match run_ops tt (firstn 5 C09_ops) (fresh [] 4 [] (Some [])) with
  | Some (rs, w) => rs = [(0, None); (0, None); (3, None); (0, None); (0, None)] /\ wr_err w = None /\
      delivered (cn_trace (wr_conn w)) = B "ab|cd|xyz0123456789|" /\ wr_buf w = B "e|"
  | None => False
  end /\
  out_of (run_ops tt C09_ops (fresh [] 4 [] (Some []))) =
    Some ([(0, None); (0, None); (3, None); (0, None); (0, None); (0, None)], B "ab|cd|xyz0123456789|e|").
Proof. vm_compute. repeat split. Qed.
Example C09_history : exists x s w,
  history store_init store (fresh [] 4 [] (Some [])) tt
    (combine (firstn 3 C09_ops) [(0, None); (0, None); (3, None)]) ([] ++ B "ab|" ++ B "cd|" ++ B "xyz") x s w.
Proof.
  do 3 eexists. change (combine _ _) with ((([] ++ [(OLine (B "ab|"), (0, @None error))]) ++ [(OLine (B "cd|"), (0, None))]) ++ [(OWrite (B "xyz"), (3, None))]).
  rewrite !app_assoc. change (B "xyz") with (firstn 3 (B "xyz")) at 2. hist.
Qed.

(** ** C10: sticky errors, delivered data is a prefix. *)

Theorem C10_sticky {W dst} dinit dstep (s : W) o (w : writer W dst) e :
  wr_err w = Some e -> o <> OClose -> run_op dinit dstep s o w = WRet (0, Some e, s, w).
Proof. exact (sticky_returns dinit dstep s o w e). Qed.
Print Assumptions C10_sticky.

Theorem C10_failure_sticks {W dst} dinit dstep (s : W) o (w : writer W dst) n e s' w' :
  run_op dinit dstep s o w = WRet (n, Some e, s', w') -> line_op o -> wr_err w' = Some e.
Proof. exact (failure_sticks dinit dstep s o w n e s' w'). Qed.
Print Assumptions C10_failure_sticks.

(** Whatever the connection does, it only sees a prefix of the accepted data, possibly
    followed by a part of the one line whose WriteLine failed. *)
Theorem C10_prefix {W dst} dinit dstep script size (hs : list (hook W)) tmo s0 h acc x s (w : writer W dst) :
  history dinit dstep (fresh script size hs tmo) s0 h acc x s w -> Forall (fun r => plain_op (fst r)) h ->
  exists d, (d = [] \/ exists n e, In (OLine d, (n, Some e)) h) /\ prefix_of (delivered (cn_trace (wr_conn w))) (acc ++ d).
Proof. exact (only_prefix dinit dstep script size hs tmo s0 h acc x s w). Qed.
Print Assumptions C10_prefix.

Definition C10_script : list wresp := [WR (Some 2) None; WR (Some 1) (Some (EText "reset")); WR None None].
Example C10_instance :
  out_of (run_ops tt [OLine (B "ab|"); OLine (B "cdef|"); OLine (B "g|"); OFlush; OEnable 3; OWrite (B "x"); OClose] (fresh C10_script 4 [] None)) =
  Some ([(0, None); (0, Some err_short_write); (0, Some err_short_write); (0, Some err_short_write); (0, Some err_short_write);
         (0, Some err_short_write); (0, Some err_short_write)], B "ab").
Proof. vm_compute. reflexivity. Qed.

(** Finding: an error of Write (as opposed to WriteLine and Flush) is not sticky: later
    lines are delivered after the hole. *)
Theorem C10_write_error_refuted :
  exists script p l w n e s1 w1 s2 w2, w = fresh (W := unit) (dst := bytes) script 4 [] None /\
    run_op store_init store tt (OWrite p) w = WRet (n, Some e, s1, w1) /\ n < length p /\
    run_op store_init store s1 (OWrite l) w1 = WRet (length l, None, s2, w2) /\
    delivered (cn_trace (wr_conn w2)) = firstn n p ++ l.
Proof.
  exists [WR (Some 1) (Some (EText "reset"))], (B "abc"), (B "de"). do 7 eexists. split; [reflexivity|].
  split; [vm_compute; reflexivity|]. split; [vm_compute; lia|]. split; [vm_compute; reflexivity|vm_compute; reflexivity].
Qed.
Print Assumptions C10_write_error_refuted.

(** ** C11: timeouts around writes. *)

Theorem C11_bracketed {W dst} dinit dstep (s : W) o (w : writer W dst) n e s' w' :
  wr_timeout w = true -> run_op dinit dstep s o w = WRet (n, e, s', w') -> line_op o ->
  (cn_trace (wr_conn w') = cn_trace (wr_conn w) /\
     (wr_err w <> None \/ exists d v, o = OLine d /\ verdict (wr_hooks w) s d s' v /\ v <> HPass)) \/
  (exists err, e = Some err /\ wr_err w' = Some err /\ cn_trace (wr_conn w') = cn_trace (wr_conn w) ++ [EvTimeout true (Some err)]) \/
  (exists ws, Forall (fun ev => exists p k x, ev = EvWrite p k x) ws /\
     cn_trace (wr_conn w') = cn_trace (wr_conn w) ++ EvTimeout true None :: ws ++ [EvTimeout false None]).
Proof. exact (bracketed dinit dstep s o w n e s' w'). Qed.
Print Assumptions C11_bracketed.

Example C11_instance :
  match run_ops tt [OLine (B "ab|"); OLine (B "cdef|"); OFlush; OLine (B "x|")] (fresh [] 4 [] (Some [None; None; None; Some (EText "deadline")])) with
  | Some (rs, w) => rs = [(0, None); (0, None); (0, None); (0, Some (EText "deadline"))] /\
      cn_trace (wr_conn w) =
        [EvTimeout true None; EvTimeout false None;
         EvTimeout true None; EvWrite (B "ab|c") 4 None; EvTimeout false None;
         EvTimeout true None; EvWrite (B "def|") 4 None; EvTimeout false None; EvTimeout true (Some (EText "deadline"))]
  | None => False
  end.
Proof. vm_compute. repeat split. Qed.

(** Finding: Write, DisableZlib and Close write to the connection without any timeout. *)
Theorem C11_unbracketed_refuted :
  (exists w1, run_op store_init store tt (OWrite (B "x")) (fresh (W := unit) [] 4 [] (Some [])) = WRet (1, None, tt, w1) /\
     cn_trace (wr_conn w1) = [EvWrite (B "x") 1 None]) /\
  (exists rs w1, run_ops tt [OEnable 1; ODisable] (fresh [] 4 [] (Some [])) = Some (rs, w1) /\
     cn_trace (wr_conn w1) = [EvTimeout true None; EvTimeout false None; EvWrite [x00] 1 None]) /\
  (exists rs w1, run_ops tt [OLine (B "x"); OClose] (fresh [] 4 [] (Some [])) = Some (rs, w1) /\
     cn_trace (wr_conn w1) = [EvTimeout true None; EvTimeout false None; EvWrite (B "x") 1 None]).
Proof.
  split; [eexists; vm_compute; split; reflexivity|]. split; do 2 eexists; vm_compute; split; reflexivity.
Qed.
Print Assumptions C11_unbracketed_refuted.

(** ** C12: hooks. *)

Theorem C12_drop {W dst} dinit dstep (w : writer W dst) s d s' :
  wr_err w = None -> verdict (wr_hooks w) s d s' HDrop -> run_op dinit dstep s (OLine d) w = WRet (0, None, s', w).
Proof. exact (hook_drop dinit dstep w s d s'). Qed.
Print Assumptions C12_drop.

Theorem C12_fail {W dst} dinit dstep (w : writer W dst) s d s' er :
  wr_err w = None -> verdict (wr_hooks w) s d s' (HErr er) ->
  run_op dinit dstep s (OLine d) w = WRet (0, Some er, s', set_error er w).
Proof. exact (hook_fail dinit dstep w s d s' er). Qed.
Print Assumptions C12_fail.

(** The hooks are asked once each, in order, until one does not pass the line. *)
Theorem C12_asked {W dst} dinit dstep (w : writer W dst) s d n e s' w' :
  wr_err w = None -> run_op dinit dstep s (OLine d) w = WRet (n, e, s', w') -> exists v, verdict (wr_hooks w) s d s' v.
Proof. exact (hook_state dinit dstep w s d n e s' w'). Qed.
Print Assumptions C12_asked.

(** The hooks of a new writer are asked in the order of their registration. *)
Theorem C12_registered {W dst} dinit dstep script size (hs : list (hook W)) tmo s d s' :
  (verdict hs s d s' HDrop -> let w : writer W dst := fresh script size hs tmo in
     run_op dinit dstep s (OLine d) w = WRet (0, None, s', w)) /\
  (forall er, verdict hs s d s' (HErr er) -> let w : writer W dst := fresh script size hs tmo in
     run_op dinit dstep s (OLine d) w = WRet (0, Some er, s', set_error er w)).
Proof.
  destruct (fresh_fields (W:=W) (dst:=dst) script size hs tmo) as (_ & _ & _ & _ & _ & E & _ & F).
  split; [intros H|intros er H]; cbv zeta; [apply C12_drop|apply C12_fail]; rewrite ?F; assumption.
Qed.
Print Assumptions C12_registered.

Definition c12_hooks : list (hook unit) :=
  [fun s l => (s, if beq (hd x00 l) "d"%byte then HDrop else HPass);
   fun s l => (s, if beq (hd x00 l) "e"%byte then HErr (EText "bad") else HPass)].
Example C12_instance :
  out_of (run_ops tt [OLine (B "a|"); OLine (B "d|"); OFlush; OLine (B "b|"); OLine (B "e|"); OLine (B "c|"); OFlush] (fresh [] 4 c12_hooks None)) =
  Some ([(0, None); (0, None); (0, None); (0, None); (0, Some (EText "bad")); (0, Some (EText "bad")); (0, Some (EText "bad"))], B "a|").
Proof. vm_compute. reflexivity. Qed.

(** ** C13: compressed sections. *)

Theorem C13_sections {W dst} dinit dstep script size (hs : list (hook W)) tmo s0 h acc x s (w : writer W dst) :
  Forall honest script -> history dinit dstep (fresh script size hs tmo) s0 h acc x s w -> Forall no_failure h -> wr_err w = None ->
  acc = concat (map contents (fst x)) ++ contents (snd x) /\
  exists base cur flushed pending,
    rendered_all dinit dstep (fst x) base /\ rendered_open dinit dstep cur flushed /\ extend cur pending = snd x /\
    delivered (cn_trace (wr_conn w)) = base ++ flushed /\
    (forall h' n, h = h' ++ [(OFlush, (n, None))] -> pending = []).
Proof. exact (sections dinit dstep script size hs tmo s0 h acc x s w). Qed.
Print Assumptions C13_sections.

Example C13_instance :
  out_of (run_ops tt [OLine (B "a|"); OEnable 5; OLine (B "bc|"); OFlush; OLine (B "defgh|"); ODisable; OEnable 9; OEnable 9; ODisable; OLine (B "i|"); OFlush]
    (fresh [WR None None] 4 [] None)) =
  Some ([(0, None); (0, None); (0, None); (0, None); (0, None); (0, None); (0, None); (0, Some err_zlib_active); (0, None); (0, None); (0, None)],
        B "a|" ++ [x09] ++ B "bc|defgh|" ++ [x00] ++ B "i|").
Proof. vm_compute. reflexivity. Qed.

(** Without a connection that obeys io.Writer a compressed section can have a hole: the
    compressor ignores the number of bytes accepted. *)
Theorem C13_short_writes_refuted :
  exists script, out_of (run_ops tt [OEnable 5; OLine (B "bc|"); ODisable] (fresh script 4 [] None)) =
    Some ([(0, None); (0, None); (0, None)], [x03]).
Proof. exists [WR (Some 1) None]. vm_compute. reflexivity. Qed.
Print Assumptions C13_short_writes_refuted.

(** ** C14: Close. *)

Theorem C14_close {W dst} dinit dstep script size (hs : list (hook W)) tmo s0 h acc x s (w w' : writer W dst) :
  Forall honest script -> history dinit dstep (fresh script size hs tmo) s0 h acc x s w -> Forall no_failure h -> wr_err w = None ->
  run_op dinit dstep s OClose w = WRet (0, None, s, w') ->
  rendered_all dinit dstep (fst x ++ [snd x]) (delivered (cn_trace (wr_conn w'))) /\ wr_err w' = Some err_writer_closed /\
  forall o s1, o <> OClose -> run_op dinit dstep s1 o w' = WRet (0, Some err_writer_closed, s1, w').
Proof. exact (close_completes dinit dstep script size hs tmo s0 h acc x s w w'). Qed.
Print Assumptions C14_close.

Example C14_instance :
  out_of (run_ops tt [OLine (B "a|"); OEnable 5; OLine (B "bc|"); OClose; OLine (B "d|"); OFlush; OWrite (B "e")] (fresh [] 4 [] None)) =
  Some ([(0, None); (0, None); (0, None); (0, None); (0, Some err_writer_closed); (0, Some err_writer_closed); (0, Some err_writer_closed)],
        B "a|" ++ [x03] ++ B "bc|").
Proof. vm_compute. reflexivity. Qed.

(** Finding: a second Close panics (nil bufio.Writer), in every state. *)
Theorem C14_close_twice_refuted {W dst} dinit dstep (s s1 : W) (w w' : writer W dst) n e :
  run_op dinit dstep s OClose w = WRet (n, e, s1, w') -> run_op dinit dstep s1 OClose w' = WPan.
Proof.
  exact (fun H => close_twice dinit dstep s s1 w w' n e H).
Qed.
Print Assumptions C14_close_twice_refuted.

(** ** C15: failed attempts to enable compression. *)

(** Finding: an invalid level leaves the writer marked as compressed without a
    compressor; the next Flush (and Close) panics. *)
Theorem C15_invalid_level_refuted :
  exists w1, run_op store_init store tt (OEnable 42) (fresh (W := unit) [] 4 [] None) = WRet (0, Some err_zlib_level, tt, w1) /\
    wr_err w1 = None /\ run_op store_init store tt OFlush w1 = WPan /\ run_op store_init store tt OClose w1 = WPan.
Proof. eexists. split; [vm_compute; reflexivity|]. vm_compute. repeat split. Qed.
Print Assumptions C15_invalid_level_refuted.

(** All other refusals leave the writer exactly as it was. *)
Theorem C15_refusal_partial {W dst} dinit dstep lvl (s : W) (w : writer W dst) :
  wr_err w = None ->
  (wr_zlib_on w = true -> run_op dinit dstep s (OEnable lvl) w = WRet (0, Some err_zlib_active, s, w)) /\
  (wr_zlib_on w = false -> run_op dinit dstep s ODisable w = WRet (0, Some err_zlib_inactive, s, w)).
Proof. exact (fun H => conj (enable_refused dinit dstep lvl s w H) (disable_refused dinit dstep s w H)). Qed.
Print Assumptions C15_refusal_partial.

Example C15_instance :
  match run_op store_init store tt (OEnable 3) (fresh (W := unit) [] 4 [] None) with
  | WRet (_, None, _, w) => wr_err w = None /\ wr_zlib_on w = true
  | _ => False
  end.
Proof. vm_compute. auto. Qed.

(** ** C81: no operation panics or hangs unless Close was called or a level was invalid. *)

Theorem C81_no_panic {W dst} dinit dstep script size (hs : list (hook W)) tmo s0 h acc x s (w : writer W dst) o :
  history dinit dstep (fresh script size hs tmo) s0 h acc x s w ->
  Forall (fun r => match fst r with OClose => False | OEnable lvl => (-2 <= lvl <= 9)%Z | _ => True end) h ->
  exists n e s' w', run_op dinit dstep s o w = WRet (n, e, s', w').
Proof. exact (no_panic dinit dstep script size hs tmo s0 h acc x s w o). Qed.
Print Assumptions C81_no_panic.

(** Even a connection that accepts nothing and reports nothing. *)
Example C81_instance :
  out_of (run_ops tt [OWrite (B "x"); OLine (B "abc|"); OLine (B "defghi|"); OEnable 1; OFlush] (fresh [WR (Some 0) None; WR (Some 0) None; WR (Some 0) None] 4 [] None)) =
  Some ([(0, None); (0, None); (0, Some err_short_write); (0, Some err_short_write); (0, Some err_short_write)], []).
Proof. vm_compute. reflexivity. Qed.

(** ** C16: from writer to reader. *)

Theorem C16_transport {W dst W' Z'} dinit dstep (act : Z' -> zaction Z') script size tmo (s0 : W) h n0 acc x s (w : writer W dst)
    delim c (v : W') n :
  history dinit dstep (fresh script size [] tmo) s0 (h ++ [(OFlush, (n0, None))]) acc x s w ->
  Forall (fun r => line_op (fst r)) h -> wr_err w = None -> Forall (is_line delim) (lines_in h) ->
  Forall quiet c -> script_data c = delivered (cn_trace (wr_conn w)) ->
  exists r', eventually (fun f =>
    read_lines act f n v (set_max_line 0 (new_reader c delim)) = Some (then_eof n (map LLine (lines_in h)) [], v, r')).
Proof. exact (transport dinit dstep act script size tmo s0 h n0 acc x s w delim c v n). Qed.
Print Assumptions C16_transport.

(** With a compressed section, for a compressor and an inflater that belong together. *)
Theorem C16_transport_zlib {W dst W' Z'} dinit dstep (act : Z' -> zaction Z') zinit script size (hs : list (hook W)) tmo s0 h n0 acc s
    (w : writer W dst) delim limit c (v : W') lvl l1 l2 l3 :
  matching act zinit dinit dstep -> (-2 <= lvl <= 9)%Z -> Forall honest script ->
  history dinit dstep (fresh script size hs tmo) s0 (h ++ [(OFlush, (n0, None))]) acc
    ([SPlain (concat l1); SZlib lvl (concat l2)], SPlain (concat l3)) s w ->
  Forall no_failure h -> wr_err w = None -> Forall (is_line delim) l1 ->
  Forall (fun l => within limit (length l)) l1 ->
  Forall solid c -> script_data c = delivered (cn_trace (wr_conn w)) ->
  exists r1 r2,
    eventually (fun f => read_lines act f (length l1) v (limited limit [] c delim) = Some (map LLine l1, v, r1)) /\
    eventually (fun f => enable_zlib act zinit f r1 = Some (ROk tt, r2)) /\
    delivers act r2 (concat (l2 ++ l3)) /\ rd_delim r2 = delim /\ rd_max r2 = limit /\ rd_hooks r2 = [].
Proof. exact (transport_zlib dinit dstep act zinit script size hs tmo s0 h n0 acc s w delim limit c v lvl l1 l2 l3). Qed.
Print Assumptions C16_transport_zlib.

(** A matching pair exists: each stored byte is preceded by 1, the end is marked by 0. *)
Inductive tagz := GTag | GByte | GOne (b : byte) | GEnd.
Definition untag (z : tagz) : zaction tagz :=
  match z with
  | GTag => ZByte (fun b => if beq b x00 then GEnd else GByte)
  | GByte => ZByte GOne
  | GOne b => ZGive [b] GTag
  | GEnd => ZLast []
  end.
Definition tag (d : unit) (o : dop) : unit * list bytes :=
  (tt, match o with DWrite p => map (fun b => [x01; b]) p | DFlush => [] | DClose => [[x00]] end).
Lemma untag_bytes : forall p c x, inflates untag GTag c x -> inflates untag GTag (concat (map (fun b => [x01; b]) p) ++ c) (p ++ x).
Proof.
  induction p as [|b p IH]; intros c x H; cbn [map concat app]; [exact H|].
  eapply inf_byte; [reflexivity|]. cbn. eapply inf_byte; [reflexivity|]. change (b :: p ++ x) with ([b] ++ (p ++ x)).
  eapply inf_give; [reflexivity|]. now apply IH.
Qed.
Example C16_matching : matching untag GTag (fun _ => tt) tag.
Proof.
  intros lvl ops _. induction ops as [|o ops IH]; intros Hn.
  - eapply inf_byte; [reflexivity|]. now apply inf_last.
  - assert (Hn' : ~ In DClose ops) by (intros H; apply Hn; now right). specialize (IH Hn'). cbn [app deflate].
    destruct o as [p| |]; [..|exfalso; apply Hn; now left]; cbn [tag];
      destruct (deflate tag tt (ops ++ [DClose])) as [d2 out]; cbn [snd] in *.
    + cbn [written flat_map]. now apply untag_bytes.
    + exact IH.
Qed.
Example C16_instance : exists acc x s w,
  history (W := unit) (fun _ => tt) tag (fresh [] 3 [] None) tt
    ((((([] ++ [(OLine (B "a|"), (0, None))]) ++ [(OFlush, (0, None))]) ++ [(OLine (B "bcdef|"), (0, None))]) ++ [(OFlush, (0, None))])) acc x s w /\
  delivered (cn_trace (wr_conn w)) = B "a|bcdef|" /\ wr_err w = None.
Proof. do 4 eexists. split; [hist|vm_compute; split; reflexivity]. Qed.
Example C16_instance_zlib : exists acc s w,
  history (W := unit) (fun _ => tt) tag (fresh [] 3 [] None) tt
    ((((((([] ++ [(OLine (B "a|"), (0, None))]) ++ [(OEnable 1, (0, None))]) ++ [(OLine (B "bc|"), (0, None))]) ++ [(ODisable, (0, None))])
      ++ [(OLine (B "d|"), (0, None))]) ++ [(OFlush, (0, None))])) acc
    ([SPlain (concat [B "a|"]); SZlib 1 (concat [B "bc|"])], SPlain (concat [B "d|"])) s w /\
  delivered (cn_trace (wr_conn w)) = B "a|" ++ [x01; x62; x01; x63; x01; x7c; x00] ++ B "d|" /\ wr_err w = None.
Proof.
  do 3 eexists. split; [|shelve].
  match goal with |- history _ _ _ _ _ _ ?x _ _ => change x with
    (advance OFlush None [] (advance (OLine (B "d|")) None (B "d|") (advance ODisable None [] (advance (OLine (B "bc|")) None (B "bc|")
      (advance (OEnable 1) None [] (advance (OLine (B "a|")) None (B "a|") ([], SPlain []))))))) end.
  hist.
  Unshelve. vm_compute. split; reflexivity.
Qed.
