(** Property C143: line callbacks that call the reader they belong to. *)
From Verif Require Import Base BaseFacts LineReader LineReentry SpecLine LineSession SpecSession SpecReentry LineReentryFacts.

(** Every call of ReadLine that returns does what the specification says. *)
Theorem C143_line {W Z} (act : Z -> zaction Z) zinit f (w : W) (s : lreader) o w' s' : rd_hooks (lr_rest s) = [] ->
  re_read_line act zinit f w s = Some (o, w', s') -> re_reads act zinit w s o w' s'.
Proof. exact (line_reads act zinit f w s o w' s'). Qed.
Print Assumptions C143_line.

(** And whatever the specification says happens. *)
Theorem C143_happens {W Z} (act : Z -> zaction Z) zinit (w : W) (s : lreader) o w' s' : rd_hooks (lr_rest s) = [] ->
  re_reads act zinit w s o w' s' -> SpecLine.eventually (fun f => re_read_line act zinit f w s = Some (o, w', s')).
Proof. intros BA R. exact (reads_line act zinit w s o w' s' R BA). Qed.
Print Assumptions C143_happens.

(** There is one result. *)
Theorem C143_unique {W Z} (act : Z -> zaction Z) zinit (w : W) (s : lreader) o w' s' o2 w2 s2 : rd_hooks (lr_rest s) = [] ->
  re_reads act zinit w s o w' s' -> re_reads act zinit w s o2 w2 s2 -> o = o2 /\ w' = w2 /\ s' = s2.
Proof.
  intros BA R1 R2. destruct (reads_line act zinit w s o w' s' R1 BA) as [f E]. exact (line_unique act zinit w s o w' s' f o2 w2 s2 BA (E f (le_n _)) R2).
Qed.
Print Assumptions C143_unique.

(** Callbacks that do not call the reader: the reader is the one of the earlier properties. *)
Theorem C143_plain {W Z} (act : Z -> zaction Z) zinit f (w : W) (r : reader W Z) :
  re_read_line act zinit f w (of_reader r) = match read_line act f w r with Some (o, w', r') => Some (o, w', of_reader r') | None => None end.
Proof. exact (plain_line act zinit f w r). Qed.
Print Assumptions C143_plain.

(** A callback that switches on compression when it sees a certain line: the lines of the plain and of the compressed
    sections are returned in their order, then io.EOF with the incomplete line. *)
Theorem C143_zon {W Z} (act : Z -> zaction Z) zinit c delim limit zon os rest (w : W) : Forall solid c ->
  SpecReentry.carries act zinit delim limit zon (Plain (script_data c)) os rest ->
  exists s', SpecLine.eventually (fun f => re_lines act zinit f (S (length os)) w (mkLreader [zon_hook zon] (limited limit [] c delim)) =
    Some (os ++ [LErr (Some rest) EEOF], w, s')).
Proof.
  intros SO CA. destruct (zon_lines act zinit delim limit zon _ os rest CA w (mkLreader [zon_hook zon] (limited limit [] c delim))) as (s' & EV & _);
    [reflexivity|reflexivity|now apply limited_serves|reflexivity|reflexivity|]. now exists s'.
Qed.
Print Assumptions C143_zon.

(** The same from any state of the reader, also inside of a compressed section; the callback stays installed. *)
Theorem C143_zon_anywhere {W Z} (act : Z -> zaction Z) zinit zon t os rest (w : W) (r : reader unit Z) : serves act zinit r t -> rd_hooks r = [] ->
  SpecReentry.carries act zinit (rd_delim r) (rd_max r) zon t os rest ->
  exists s', SpecLine.eventually (fun f => re_lines act zinit f (S (length os)) w (mkLreader [zon_hook zon] r) = Some (os ++ [LErr (Some rest) EEOF], w, s')) /\
    serves act zinit (lr_rest s') (Plain []) /\ lr_hooks s' = [zon_hook zon].
Proof. intros SV BA CA. exact (zon_lines act zinit _ _ zon t os rest CA w (mkLreader [zon_hook zon] r) BA eq_refl SV eq_refl eq_refl). Qed.
Print Assumptions C143_zon_anywhere.

(** A callback that closes the reader and passes the line: ReadLine returns the line, all later calls fail without a callback. *)
Theorem C143_close {W Z} (act : Z -> zaction Z) zinit f l r' (w : W) (r : reader unit Z) h : rd_hooks r = [] ->
  read_line act f tt r = Some (LLine l, tt, r') -> h w l = PClose (PReturn w HPass) ->
  SpecLine.eventually (fun g => re_lines act zinit g 3 w (mkLreader [h] r) =
    Some ([LLine l; LErr None err_closed; LErr None err_closed], w, mkLreader [] (close_reader r'))).
Proof.
  intros BA E H. pose proof (lines_cons act zinit 2 w (mkLreader [h] r) (LLine l) w (mkLreader [] (close_reader r')) [LErr None err_closed; LErr None err_closed] w (mkLreader [] (close_reader r')) BA) as Q.
  apply Q; [|now exists 0]. eapply re_pass; [exact E|]. eapply as_pass; [rewrite H; apply do_close, do_return|constructor].
Qed.
Print Assumptions C143_close.

(** Calls in callbacks never lead to a panic of ReadLine. *)
Definition C143_no_panic_claim : Prop := forall (W Z : Type) (act : Z -> zaction Z) zinit f (w : W) c delim h o w' s',
  Forall solid c -> (forall s w1 l w2 v s1, does act zinit (h w1 l) s w2 v s1 -> v <> None) ->
  re_read_line act zinit f w (re_on_line h (new_lreader c delim)) = Some (o, w', s') -> o <> LPanic.
(** False: a callback that closes the reader and drops the line. *)
Theorem C143_no_panic_refuted : ~ C143_no_panic_claim.
Proof.
  intro H. refine (H unit unit (fun _ => ZLast []) tt 5 tt [RD (B "a|") None] "|"%byte (fun w _ => PClose (PReturn w HDrop)) LPanic tt _ _ _ _ eq_refl).
  - repeat constructor. discriminate.
  - intros s w1 l w2 v s1 D. inversion D as [| | | | | |p hs r w3 v3 s3 D2]; subst. inversion D2. discriminate.
  - vm_compute. reflexivity.
Qed.
Print Assumptions C143_no_panic_refuted.
(** ReadLine panics in three cases only: behind some dropped lines, reading from the connection panicked, a callback panicked, or a
    callback closed the reader and dropped the line. *)
Theorem C143_panic {W Z} (act : Z -> zaction Z) zinit (w : W) (s : lreader) w' s' : re_reads act zinit w s LPanic w' s' ->
  exists w0 hs r, drops_to act zinit w s w0 (mkLreader hs r) /\
   ((exists f r', read_line act f tt r = Some (LPanic, tt, r') /\ w' = w0 /\ s' = mkLreader hs r') \/
    (exists f l r' v, read_line act f tt r = Some (LLine l, tt, r') /\ asked act zinit hs w0 l (mkLreader hs r') w' v s' /\
      (v = None \/ v = Some HDrop /\ rd_open (lr_rest s') = false))).
Proof.
  intro R. remember LPanic as o eqn:EO. induction R as [w hs r f o r' E N|w hs r f l r' w' s' E A|w hs r f l r' w' e s' E A|w hs r f l r' w' s' E A|w hs r f l r' w' s' o w2 s2 E A O R IH|w hs r f l r' w' s' E A O]; try discriminate.
  - exists w, hs, r. split; [constructor|]. left. exists f, r'. split; [congruence|now split].
  - exists w, hs, r. split; [constructor|]. right. exists f, l, r', None. auto.
  - destruct (IH EO) as (w0 & hs0 & r0 & D & H). exists w0, hs0, r0. split; [|exact H]. eapply dr_next; eassumption.
  - exists w, hs, r. split; [constructor|]. right. exists f, l, r', (Some HDrop). auto.
Qed.
Print Assumptions C143_panic.

(** For the examples: an inflater for one length byte and that many stored bytes. *)
Inductive C143_state := YStart | YLen (n : nat) | YBody (n : nat) | YDone (d : bytes).
(** The inflater. *)
Definition C143_act (z : C143_state) : zaction C143_state :=
  match z with
  | YStart => ZByte (fun b => YLen (N.to_nat (b2n b)))
  | YLen n => ZReady (YBody n)
  | YBody n => ZFull n YDone
  | YDone d => ZLast d
  end.
(** A connection: compression switched on twice, a section that ends inside of a line. *)
Definition C143_script : script :=
  [RD (B "a|$ZOn|" ++ [x04] ++ B "b|") None; RD (B "cd|") None; RD (B "$ZOn|" ++ [x09] ++ B "e|$ZOn|f|g") None].
(** All lines are returned, the one inside of a section is an error. *)
Example C143_zon_case :
  match re_lines C143_act YStart 50 7 0 (mkLreader [zon_hook (B "$ZOn|")] (limited 32 [] C143_script "|"%byte)) with
  | Some (os, _, _) => os = [LLine (B "a|"); LLine (B "b|"); LLine (B "cd|"); LLine (B "e|"); LErr None err_zlib_active; LLine (B "f|"); LErr (Some (B "g")) EEOF]
  | None => False
  end.
Proof. vm_compute. reflexivity. Qed.
(** The hypotheses of C143_zon hold for it. *)
Example C143_zon_hypotheses : Forall solid C143_script /\
  SpecReentry.carries C143_act YStart "|"%byte 32 (B "$ZOn|") (Plain (script_data C143_script))
    [LLine (B "a|"); LLine (B "b|"); LLine (B "cd|"); LLine (B "e|"); LErr None err_zlib_active; LLine (B "f|")] (B "g").
Proof.
  assert (IL : forall l, contains_byte "|"%byte l = false -> is_line "|"%byte (l ++ B "|")) by (intros l Hl; exists l; split; [reflexivity|now apply contains_byte_false]).
  assert (LN : forall l t u os rest, contains_byte "|"%byte l = false -> contents t = (l ++ B "|") ++ u -> (length (l ++ B "|") <=? 32) = true -> l ++ B "|" <> B "$ZOn|" ->
    SpecReentry.carries C143_act YStart "|"%byte 32 (B "$ZOn|") (after (length (l ++ B "|")) t) os rest -> SpecReentry.carries C143_act YStart "|"%byte 32 (B "$ZOn|") t (LLine (l ++ B "|") :: os) rest).
  { intros l t u os rest Hl C M N CA. eapply ca_line; [exact C|now apply IL|right; apply Nat.leb_le in M; lia|exact N|exact CA]. }
  assert (INF : forall b x, N.to_nat (b2n b) = length x -> inflates C143_act YStart (b :: x) x).
  { intros b x L. eapply inf_byte; [reflexivity|]. eapply inf_ready; [reflexivity|]. rewrite <- (app_nil_r x) at 1.
    eapply inf_full; [reflexivity|now rewrite L|]. now apply inf_last. }
  split; [repeat constructor; discriminate|].
  eapply (LN (B "a")); [reflexivity|vm_compute; reflexivity|reflexivity|discriminate|].
  eapply (ca_zon _ _ _ _ _ _ _ (x04 :: B "b|cd") (B "b|cd") (B "|$ZOn|" ++ [x09] ++ B "e|$ZOn|f|g"));
    [vm_compute; reflexivity|apply (IL (B "$ZOn")); reflexivity|right; vm_compute; discriminate|vm_compute; reflexivity|now apply INF|].
  eapply (LN (B "b")); [reflexivity|vm_compute; reflexivity|reflexivity|discriminate|].
  eapply (LN (B "cd")); [reflexivity|vm_compute; reflexivity|reflexivity|discriminate|].
  eapply (ca_zon _ _ _ _ _ _ _ (x09 :: B "e|$ZOn|f|") (B "e|$ZOn|f|") (B "g"));
    [vm_compute; reflexivity|apply (IL (B "$ZOn")); reflexivity|right; vm_compute; discriminate|vm_compute; reflexivity|now apply INF|].
  eapply (LN (B "e")); [reflexivity|vm_compute; reflexivity|reflexivity|discriminate|].
  eapply (ca_twice _ _ _ _ _ _ _ (B "f|") (B "g"));
    [vm_compute; reflexivity|apply (IL (B "$ZOn")); reflexivity|right; vm_compute; discriminate|vm_compute; reflexivity|discriminate|].
  eapply (LN (B "f")); [reflexivity|vm_compute; reflexivity|reflexivity|discriminate|].
  refine (ca_end _ _ _ _ _ _ _ _); [|right; vm_compute; discriminate]. apply contains_byte_false. reflexivity.
Qed.
(** A callback that counts, adds another one and reads two bytes when it sees "add|", lowers the limit at "low|" and closes the reader at "end|". *)
Definition C143_hook (n : nat) (l : bytes) : hprog nat :=
  if bytes_eqb l (B "add|") then PHook (fun m _ => PReturn (m + 100) HPass) (PRead 2 (fun o => match o with ROk _ => PReturn (S n) HPass | _ => PPanic n end))
  else if bytes_eqb l (B "low|") then PMax 3 (PReturn (S n) HDrop)
  else if bytes_eqb l (B "end|") then PClose (PReturn (S n) HPass)
  else PReturn (S n) HPass.
(** The callback added does not see the line it was added at; the limit holds from the next line on. *)
Example C143_case :
  match re_lines C143_act YStart 50 5 0 (re_on_line C143_hook (new_lreader [RD (B "a|add|xya|end|b") None] "|"%byte)) with
  | Some (os, n, s) => os = [LLine (B "a|"); LLine (B "add|"); LLine (B "a|"); LLine (B "end|"); LErr None err_closed] /\ n = 204 /\ lr_hooks s = []
  | None => False
  end /\
  match re_lines C143_act YStart 50 3 0 (re_on_line C143_hook (new_lreader [RD (B "abc|low|a|abc|") None] "|"%byte)) with
  | Some (os, n, s) => os = [LLine (B "abc|"); LLine (B "a|"); LLine (B "abc|")] /\ n = 4
  | None => False
  end /\
  match re_lines C143_act YStart 50 2 0 (re_on_line C143_hook (new_lreader [RD (B "low|abc") None; RD (B "d|") None] "|"%byte)) with
  | Some (os, n, s) => os = [LErr None err_exhausted; LLine (B "d|")] /\ n = 2
  | None => False
  end.
Proof. repeat split. Qed.
