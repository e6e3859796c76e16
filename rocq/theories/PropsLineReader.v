(** Property theorems C01-C08: the line reader of lineproto/reader.go.
    Specifications: SpecLine.v.  Proofs: LineReaderFacts.v, LineReaderStream.v, LineReaderOps.v.

    [act] is an arbitrary inflater, [W] an arbitrary type of hook state. *)
From Verif Require Import Base BaseFacts LineReader SpecLine LineReaderFacts LineReaderStream LineReaderOps.

(** A toy inflater for the examples: one length byte, then that many stored bytes. *)
Inductive toyz := TStart | TLen (n : nat) | TBody (n : nat) | TGive (d : bytes).
Definition toy (z : toyz) : zaction toyz :=
  match z with
  | TStart => ZByte (fun b => TLen (N.to_nat (b2n b)))
  | TLen n => ZReady (TBody n)
  | TBody n => ZFull n TGive
  | TGive d => ZLast d
  end.

(** Only the results. *)
Definition outs_of {A B C} (x : option (A * B * C)) : option A :=
  match x with Some (a, _, _) => Some a | None => None end.

(** ** C01: framing does not depend on the chunking. *)

Theorem C01_framing {W Z} (act : Z -> zaction Z) delim c ls rest (w : W) n :
  Forall quiet c -> lines_of delim (script_data c) ls rest ->
  exists r', eventually (fun f =>
    read_lines act f n w (set_max_line 0 (new_reader c delim)) =
    Some (then_eof n (map LLine ls) rest, w, r')).
Proof. exact (framing act delim c ls rest w n). Qed.
Print Assumptions C01_framing.

(** Empty reads, a line split over three reads, two lines in one read, data with EOF. *)
Definition C01_script : script :=
  [RD (B "$He") None; RD [] None; RD (B "l") None; RD (B "lo|a|b") None; RD (B "|c") (Some EEOF)].
Example C01_instance :
  Forall quiet C01_script /\
  lines_of "|"%byte (script_data C01_script) [B "$Hello|"; B "a|"; B "b|"] (B "c") /\
  outs_of (read_lines toy 50 5 tt (set_max_line 0 (new_reader C01_script "|"%byte))) =
    Some [LLine (B "$Hello|"); LLine (B "a|"); LLine (B "b|"); LErr (Some (B "c")) EEOF; LErr (Some []) EEOF].
Proof.
  split; [repeat (constructor; [first [now right|left; discriminate]|]); constructor|]. split; [|vm_compute; reflexivity].
  split; [reflexivity|]. split.
  - repeat constructor; [exists (B "$Hello")|exists (B "a")|exists (B "b")];
      (split; [reflexivity|]); cbn; intuition discriminate.
  - cbn. intuition discriminate.
Qed.

(** ** C02: the line limit. *)

Theorem C02_fitting_lines_returned {W Z} (act : Z -> zaction Z) limit delim c ls rest (w : W) n :
  Forall quiet c -> lines_of delim (script_data c) ls rest ->
  Forall (fun l => within limit (length l)) ls -> within limit (S (length rest)) ->
  exists w2 r', eventually (fun f =>
      read_lines act f n w (limited limit [] c delim) = Some (then_eof n (map LLine ls) rest, w2, r')) /\
    (length (map LLine ls) < n -> w2 = w).
Proof.
  exact (fun Hq Hl Hw Hr => hooks_filter act limit [] delim c ls rest w _ w n Hq Hl Hw Hr (reported_no_hooks w ls)).
Qed.
Print Assumptions C02_fitting_lines_returned.

Theorem C02_never_longer {W Z} (act : Z -> zaction Z) zinit (r : reader W Z) f w l w' r' :
  reachable act zinit r -> (0 < rd_max r)%Z -> read_line act f w r = Some (LLine l, w', r') ->
  (Z.of_nat (length l) <= rd_max r - 1 + 2048)%Z.
Proof. exact (never_longer act zinit r f w l w' r'). Qed.
Print Assumptions C02_never_longer.

Theorem C02_too_long_rejected {W Z} (act : Z -> zaction Z) zinit (r : reader W Z) w big t :
  reachable act zinit r -> rd_open r = true -> rd_zlib_on r = false -> rd_zcur r = false ->
  Forall quiet (rd_conn r) -> rd_orig r ++ script_data (rd_conn r) = big ++ t -> ~ In (rd_delim r) big ->
  (0 < rd_max r)%Z -> (rd_max r + 2048 - 1 <= Z.of_nat (length big))%Z ->
  exists r', eventually (fun f => read_line act f w r = Some (LErr None err_exhausted, w, r')).
Proof. exact (too_long act zinit r w big t). Qed.
Print Assumptions C02_too_long_rejected.

Theorem C02_no_limit {W Z} (act : Z -> zaction Z) (r : reader W Z) f w e w' r' :
  rd_open r = true -> (rd_max r <= 0)%Z -> rd_hooks r = [] ->
  read_line act f w r <> Some (LErr None e, w', r').
Proof. exact (unlimited_never_long act r f w e w' r'). Qed.
Print Assumptions C02_no_limit.

(** Limit 4: a line of 4 bytes passes in any chunking, one of 2052 bytes is refused. *)
Example C02_instance :
  outs_of (read_lines toy 50 2 tt (limited 4 [] [RD (B "ab") None; RD (B "c|") None] "|"%byte)) =
    Some [LLine (B "abc|"); LErr (Some []) EEOF] /\
  outs_of (read_lines toy 50 1 tt (limited 4 [] [RD (repeat "a"%byte (N.to_nat 2051) ++ B "|") None] "|"%byte)) =
    Some [LErr None err_exhausted] /\
  outs_of (read_lines toy 50 1 tt
    (limited 4 [] [RD (B "abc") None; RD (repeat "a"%byte (N.to_nat 2047) ++ B "|") None] "|"%byte)) =
    Some [LLine (B "abc" ++ repeat "a"%byte (N.to_nat 2047) ++ B "|")].
Proof. repeat split; vm_compute; reflexivity. Qed.

(** ** C03: SetMaxLine is not a hard bound. *)

Theorem C03_hard_limit_refuted :
  exists limit c f l r', (0 < limit)%Z /\ Forall solid c /\
    read_line toy f tt (limited limit [] c "|"%byte) = Some (LLine l, tt, r') /\
    (limit < Z.of_nat (length l))%Z.
Proof.
  exists 4%Z, [RD (B "abcdefgh|") None], 5, (B "abcdefgh|"). eexists.
  split; [reflexivity|]. split; [repeat constructor; discriminate|]. split; [vm_compute; reflexivity|reflexivity].
Qed.
Print Assumptions C03_hard_limit_refuted.

(** The strongest bound that holds (the slack is one read buffer). *)
Theorem C03_hard_limit_partial {W Z} (act : Z -> zaction Z) zinit (r : reader W Z) f w l w' r' :
  reachable act zinit r -> (0 < rd_max r)%Z -> read_line act f w r = Some (LLine l, w', r') ->
  (Z.of_nat (length l) <= rd_max r - 1 + 2048)%Z.
Proof. exact (never_longer act zinit r f w l w' r'). Qed.
Print Assumptions C03_hard_limit_partial.

(** ** C04: hooks. *)

Theorem C04_hooks {W Z} (act : Z -> zaction Z) limit hs delim c ls rest (w : W) outs w' n :
  Forall quiet c -> lines_of delim (script_data c) ls rest ->
  Forall (fun l => within limit (length l)) ls -> within limit (S (length rest)) ->
  reported hs w ls outs w' ->
  exists w2 r', eventually (fun f =>
      read_lines act f n w (limited limit hs c delim) = Some (then_eof n outs rest, w2, r')) /\
    (length outs < n -> w2 = w').
Proof. exact (hooks_filter act limit hs delim c ls rest w outs w' n). Qed.
Print Assumptions C04_hooks.

(** Every list of hooks has a report for every list of lines. *)
Theorem C04_report_exists {W} (hs : list (hook W)) ls w : exists outs w', reported hs w ls outs w'.
Proof. exact (reported_total hs ls w). Qed.
Print Assumptions C04_report_exists.

(** Two hooks logging their calls: the first drops lines starting with 'd', the second
    fails on lines starting with 'e'. *)
Definition log_hook (k : nat) (v : byte -> hook_res) : hook (list (nat * bytes)) :=
  fun w l => (w ++ [(k, l)], v (hd x00 l)).
Definition C04_hooks_list : list (hook (list (nat * bytes))) :=
  [log_hook 1 (fun b => if beq b "d"%byte then HDrop else HPass);
   log_hook 2 (fun b => if beq b "e"%byte then HErr (EText "bad") else HPass)].
Example C04_instance :
  reported C04_hooks_list [] [B "a|"; B "d|"; B "e|"; B "b|"]
    [LLine (B "a|"); LErr None (EText "bad"); LLine (B "b|")]
    [(1, B "a|"); (2, B "a|"); (1, B "d|"); (1, B "e|"); (2, B "e|"); (1, B "b|"); (2, B "b|")].
Proof.
  eapply rep_pass; [eapply v_pass; [reflexivity|]; eapply v_pass; [reflexivity|constructor]|].
  eapply rep_drop; [eapply v_stop; [reflexivity|discriminate]|].
  eapply rep_err; [eapply v_pass; [reflexivity|]; eapply v_stop; [reflexivity|discriminate]|].
  eapply rep_pass; [eapply v_pass; [reflexivity|]; eapply v_pass; [reflexivity|constructor]|].
  constructor.
Qed.
Example C04_run :
  match read_lines toy 50 4 [] (limited 0 C04_hooks_list [RD (B "a|d|e") None; RD (B "|b|") None] "|"%byte) with
  | Some (os, w, _) => os = [LLine (B "a|"); LErr None (EText "bad"); LLine (B "b|"); LErr (Some []) EEOF] /\
      w = [(1, B "a|"); (2, B "a|"); (1, B "d|"); (1, B "e|"); (2, B "e|"); (1, B "b|"); (2, B "b|")]
  | None => False
  end.
Proof. vm_compute. split; reflexivity. Qed.

(** ** C05: binary mode. *)

Theorem C05_binary {W Z} (act : Z -> zaction Z) delim limit (hs : list (hook W)) c sz ns :
  Forall no_error c -> (sz < 2 ^ 63)%N -> Forall (fun n => 0 < n) ns ->
  let r := limited limit hs c delim in let s := script_data c in
  exists left os left' r1 r2,
    binary sz r = ROk left /\
    eventually (fun f => binary_reads act f ns left r = Some (os, left', r1)) /\
    eventually (fun f => binary_close act f left' r1 = Some (ROk None, r2)) /\
    (exists rest, firstn (N.to_nat sz) s = concat (map fst os) ++ rest) /\
    Forall2 (fun n o => length (fst o) <= n) ns os /\
    Forall (fun o => snd o = None \/ snd o = Some EEOF) os /\
    (In (Some EEOF) (map snd os) -> concat (map fst os) = firstn (N.to_nat sz) s) /\
    delivers act r2 (skipn (N.to_nat sz) s) /\
    rd_delim r2 = delim /\ rd_max r2 = limit /\ rd_hooks r2 = hs.
Proof. exact (binary_exact act delim limit hs c sz ns). Qed.
Print Assumptions C05_binary.

Definition C05_script : script := [RD (B "ab|c") None; RD (B "d|e") None; RD (B "f|") None].
Example C05_instance :
  match binary_reads toy 50 [2; 1] 5 (limited 0 [] C05_script "|"%byte) with
  | Some (os, lft, r1) =>
      os = [(B "ab", None); (B "|", None)] /\ lft = 2%Z /\
      match binary_close toy 50 lft r1 with
      | Some (ROk None, r2) => outs_of (read_lines toy 50 2 tt r2) = Some [LLine (B "|"); LLine (B "ef|")]
      | _ => False
      end
  | None => False
  end.
Proof. vm_compute. repeat split. Qed.

(** A size of 2^63 or more is not honoured: the reader is empty. *)
Theorem C05_huge_refuted :
  exists (r : reader unit toyz) f r', binary (2 ^ 63) r = ROk (- 2 ^ 63)%Z /\
    binary_read toy f 10 (- 2 ^ 63) r = Some (ROk ([], Some EEOF), (- 2 ^ 63)%Z, r') /\
    script_data (rd_conn r) <> [].
Proof.
  exists (limited 0 [] C05_script "|"%byte), 9. eexists. vm_compute. repeat split. discriminate.
Qed.
Print Assumptions C05_huge_refuted.

(** ** C06: truncated lines. *)

Theorem C06_error_with_partial {W Z} (act : Z -> zaction Z) delim c e ls rest (w : W) n :
  Forall quiet c -> lines_of delim (script_data c) ls rest ->
  exists r', eventually (fun f =>
    read_lines act f (length ls + S n) w (set_max_line 0 (new_reader (c ++ [RD [] (Some e)]) delim)) =
    Some (map LLine ls ++ LErr (Some rest) e :: repeat (LErr (Some []) EEOF) n, w, r')).
Proof. exact (failing act delim c e ls rest w n). Qed.
Print Assumptions C06_error_with_partial.

(** In every state and for every connection a returned line ends with its only delimiter. *)
Theorem C06_only_terminated_lines {W Z} (act : Z -> zaction Z) (r : reader W Z) f w l w' r' :
  read_line act f w r = Some (LLine l, w', r') -> is_line (rd_delim r) l.
Proof. exact (complete_line act r f w l w' r'). Qed.
Print Assumptions C06_only_terminated_lines.

Example C06_instance :
  outs_of (read_lines toy 50 4 tt
    (set_max_line 0 (new_reader ([RD (B "a|b") None; RD (B "c") None] ++ [RD [] (Some (EText "reset"))]) "|"%byte))) =
  Some [LLine (B "a|"); LErr (Some (B "bc")) (EText "reset"); LErr (Some []) EEOF; LErr (Some []) EEOF].
Proof. vm_compute. reflexivity. Qed.

(** Finding: after an error that is not permanent (a read timeout) the next call returns
    the tail of the interrupted line as if it were a complete line. *)
Theorem C06_transient_error_refuted :
  exists c f r', script_data c = B "abc|" /\
    read_lines toy f 2 tt (set_max_line 0 (new_reader c "|"%byte)) =
    Some ([LErr (Some (B "ab")) (EText "timeout"); LLine (B "c|")], tt, r').
Proof.
  exists [RD (B "ab") None; RD [] (Some (EText "timeout")); RD (B "c|") None], 9. eexists.
  split; [reflexivity|vm_compute; reflexivity].
Qed.
Print Assumptions C06_transient_error_refuted.

(** ** C07: a closed reader stays closed. *)

Theorem C07_closed {W Z} (act : Z -> zaction Z) zinit (r r' : reader W Z) :
  rd_open r = false ->
  (forall f w, read_line act f w r = Some (LErr None err_closed, w, r)) /\
  (forall f n, reader_read act f n r = Some (ROk ([], Some err_closed), r)) /\
  (forall sz, binary sz r = RErr err_closed) /\
  (forall f, enable_zlib act zinit f r = Some (RErr err_closed, r)) /\
  (step act zinit r r' -> rd_open r' = false /\ rd_conn r' = rd_conn r).
Proof. exact (closed_forever act zinit r r'). Qed.
Print Assumptions C07_closed.

Theorem C07_close_closes {W Z} (r : reader W Z) :
  rd_open (close_reader r) = false /\ rd_conn (close_reader r) = rd_conn r.
Proof. exact (conj eq_refl eq_refl). Qed.
Print Assumptions C07_close_closes.

(** Close also lets go of the hooks and of everything buffered, and ends compression. *)
Theorem C07_released {W Z} (r : reader W Z) :
  rd_hooks (close_reader r) = [] /\ rd_orig (close_reader r) = [] /\ rd_comp (close_reader r) = [] /\
  rd_zlib_on (close_reader r) = false /\ rd_delim (close_reader r) = rd_delim r.
Proof. repeat split. Qed.
Print Assumptions C07_released.

Example C07_instance :
  outs_of (read_lines toy 50 2 tt (close_reader (limited 0 [] C05_script "|"%byte))) =
  Some [LErr None err_closed; LErr None err_closed].
Proof. vm_compute. reflexivity. Qed.

(** ** C08: switching to zlib and back. *)

Theorem C08_zlib {W Z} (act : Z -> zaction Z) zinit delim limit c ls z x rest (w : W) :
  Forall solid c -> script_data c = concat ls ++ z ++ rest -> Forall (is_line delim) ls ->
  Forall (fun l => within limit (length l)) ls -> inflates act zinit z x ->
  exists r1 r2,
    eventually (fun f => read_lines act f (length ls) w (limited limit [] c delim) = Some (map LLine ls, w, r1)) /\
    eventually (fun f => enable_zlib act zinit f r1 = Some (ROk tt, r2)) /\
    delivers act r2 (x ++ rest) /\
    rd_delim r2 = delim /\ rd_max r2 = limit /\ rd_hooks r2 = [] /\
    forall f, enable_zlib act zinit f r2 = Some (RErr err_zlib_active, r2).
Proof. exact (zlib_switch act zinit delim limit c ls z x rest w). Qed.
Print Assumptions C08_zlib.

(** The compressed part (length byte 3, "b|c") ends in the middle of the line "cd|". *)
Definition C08_script : script := [RD (B "$ZOn" ++ [x7c; x03]) None; RD (B "b|") None; RD (B "cd|e|") None].
Example C08_instance :
  Forall solid C08_script /\
  script_data C08_script = concat [B "$ZOn|"] ++ (x03 :: B "b|c") ++ B "d|e|" /\
  inflates toy TStart (x03 :: B "b|c") (B "b|c") /\
  match read_lines toy 50 1 tt (limited 0 [] C08_script "|"%byte) with
  | Some (_, _, r1) =>
      match enable_zlib toy TStart 50 r1 with
      | Some (ROk tt, r2) =>
          outs_of (read_lines toy 50 4 tt r2) =
            Some [LLine (B "b|"); LLine (B "cd|"); LLine (B "e|"); LErr (Some []) EEOF]
      | _ => False
      end
  | None => False
  end.
Proof.
  split; [repeat constructor; discriminate|]. split; [reflexivity|]. split; [|vm_compute; reflexivity].
  eapply inf_byte; [reflexivity|]. eapply inf_ready; [reflexivity|].
  change (B "b|c") with (B "b|c" ++ []) at 1. eapply inf_full; [reflexivity|reflexivity|].
  now apply inf_last.
Qed.

(** Finding: a failed EnableZlib leaves the reader marked as compressed, so compression
    can never be enabled afterwards. *)
Theorem C08_failed_enable_refuted :
  exists c f r1 r2, enable_zlib toy TStart f (limited (W := unit) 0 [] c "|"%byte) = Some (RErr EUnexpectedEOF, r1) /\
    enable_zlib toy TStart f r1 = Some (RErr err_zlib_active, r2).
Proof. exists [], 9. do 2 eexists. vm_compute. split; reflexivity. Qed.
Print Assumptions C08_failed_enable_refuted.

(** Finding: a connection that delivers an empty read without error makes the inflater's
    ReadByte panic (bufReader.ReadByte indexes the empty buffer). *)
Theorem C08_empty_read_refuted :
  exists c f r1, Forall no_error c /\
    enable_zlib toy TStart f (limited (W := unit) 0 [] c "|"%byte) = Some (RPanic, r1).
Proof. exists [RD [] None; RD [x00] None], 9. eexists. vm_compute. split; [repeat constructor|reflexivity]. Qed.
Print Assumptions C08_empty_read_refuted.
