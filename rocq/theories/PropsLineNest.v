(** Property C148: line callbacks that call ReadLine of the reader they belong to.  Specification: SpecLineNest.v (and SpecMsgReentry.v for
    [overwritten]).  Proofs: LineNestFacts.v. *)
From Verif Require Import Base LineReader LineReentry SpecLine MsgReentry SpecMsgReentry LineNest SpecLineNest LineNestFacts.

(** Callbacks that do not call ReadLine: the reader is that of C143, whatever the memory of the lines is. *)
Theorem C148_plain {W Z} (act : Z -> zaction Z) zinit room f (w : W) hs (r : reader unit Z) b : good_buf b ->
  match re_read_line act zinit f w (mkLreader hs r) with
  | None => n_read_line act zinit room f w (mkNreader (map lifts hs) r b) = None
  | Some (o, w', s') => exists b', good_buf b' /\ n_read_line act zinit room f w (mkNreader (map lifts hs) r b) = Some (o, w', mkNreader (map lifts (lr_hooks s')) (lr_rest s') b')
  end.
Proof. exact (lift_line act zinit room f w (mkLreader hs r) b). Qed.
Print Assumptions C148_plain.

(** A callback that reads further lines and passes the line it was given: ReadLine returns that line. *)
Definition C148_kept_claim : Prop := forall (Z : Type) (act : Z -> zaction Z) zinit room n (r : reader unit Z) f l r1 ls r2 b, rd_hooks r = [] -> good_buf b ->
  read_line act f tt r = Some (LLine l, tt, r1) -> gets act r1 ls r2 -> n l = length ls ->
  exists b', SpecLine.eventually (fun g => n_read_line act zinit room g false (mkNreader [taking n (fun _ _ => HPass)] r b) =
    Some (LLine l, false, mkNreader [taking n (fun _ _ => HPass)] r2 b')).
(** It does not: both are in [r.line]. *)
Theorem C148_kept_refuted : ~ C148_kept_claim.
Proof.
  intros H. pose (c := [RD (B "ab|cdef|xyz|") None]). pose (r := (new_reader c "|" : reader unit unit)).
  assert (E1 : read_line (fun _ => ZLast []) 5 tt r = Some (LLine (B "ab|"), tt, with_plain [] (B "cdef|xyz|") r)) by (vm_compute; reflexivity).
  assert (T : gets (fun _ => ZLast []) (with_plain [] (B "cdef|xyz|") r) [B "cdef|"] (with_plain [] (B "xyz|") r)).
  { apply (gt_cons _ _ 5%nat _ (with_plain [] (B "xyz|") r)); [vm_compute; reflexivity|constructor]. }
  destruct line_mem_good as [G LN].
  destruct (H unit _ tt (fun _ m => m) (fun _ => 1%nat) r 5%nat _ _ _ _ line_mem eq_refl G E1 T eq_refl) as (b' & g & E).
  destruct (taking_line _ tt (fun _ m => m) (fun _ => 1%nat) (fun _ _ => HPass) 5%nat r _ _ _ _ line_mem eq_refl G E1 T eq_refl) as (b2 & k & line' & _ & _ & K2 & _ & K4 & g2 & K5).
  rewrite LN in K2. specialize (K2 ltac:(cbn; lia)). subst k. destruct K4 as [-> _]; [repeat constructor; cbn; lia|].
  specialize (E (g + g2)%nat ltac:(lia)). specialize (K5 (g + g2)%nat ltac:(lia)). rewrite K5 in E. injection E as E _. discriminate.
Qed.
Print Assumptions C148_kept_refuted.
(** What ReadLine returns: the line with the lines read in the callback over it; at least if they fit in the array the line is in.  Passed
    on or not, the next call goes on behind the lines that the callback has read.  If the callback drops the line, the same call does. *)
Theorem C148_line {Z} (act : Z -> zaction Z) zinit room n v (r : reader unit Z) f l r1 ls r2 b : rd_hooks r = [] -> good_buf b ->
  read_line act f tt r = Some (LLine l, tt, r1) -> gets act r1 ls r2 -> n l = length ls ->
  exists b' c line', good_buf b' /\ (length l <= c)%nat /\ ((length l <= length (b_array (mb_at b) b))%nat -> c = length (b_array (mb_at b) b)) /\
    length line' = length l /\ (Forall (fun x => (length x <= c)%nat) ls -> line' = fold_left overwritten ls l /\ length (b_array (mb_at b') b') = c) /\
    let s := mkNreader [taking n v] r b in
    let s2 := mkNreader [taking n v] r2 b' in
    match v l ls with
    | HPass => SpecLine.eventually (fun g => n_read_line act zinit room g false s = Some (LLine line', false, s2))
    | HErr e => SpecLine.eventually (fun g => n_read_line act zinit room g false s = Some (LErr None e, false, s2))
    | HDrop => exists k, SpecLine.eventually (fun g => n_read_line act zinit room (g + k) false s = n_read_line act zinit room g false s2)
    end.
Proof. exact (taking_line act zinit room n v f r l r1 ls r2 b). Qed.
Print Assumptions C148_line.
(** A new reader, lines of up to 2048 bytes. *)
Theorem C148_new {Z} (act : Z -> zaction Z) zinit room n c delim f l r1 ls r2 : read_line act f tt (new_reader c delim : reader unit Z) = Some (LLine l, tt, r1) ->
  gets act r1 ls r2 -> n l = length ls -> Forall (fun x => (length x <= 2048)%nat) (l :: ls) ->
  exists b', good_buf b' /\ length (b_array (mb_at b') b') = 2048%nat /\
    SpecLine.eventually (fun g => n_read_line act zinit room g false (new_nreader [taking n (fun _ _ => HPass)] c delim) =
      Some (LLine (fold_left overwritten ls l), false, mkNreader [taking n (fun _ _ => HPass)] r2 b')).
Proof.
  intros E T N F. inversion F as [|? ? F1 F2]; subst. destruct line_mem_good as [G LN].
  destruct (taking_line act zinit room n (fun _ _ => HPass) f (new_reader c delim) l r1 ls r2 line_mem eq_refl G E T N) as (b' & k & line' & G' & K1 & K2 & K3 & K4 & K5).
  rewrite LN in K2. rewrite (K2 F1) in K4. destruct (K4 F2) as [-> K6]. exists b'. split; [exact G'|]. split; [exact K6|exact K5].
Qed.
Print Assumptions C148_new.
(** The input ends, or fails, while the callback reads: the callback reports this error. *)
Theorem C148_fails {Z} (act : Z -> zaction Z) zinit room n v (r : reader unit Z) f l r1 ls r2 f2 o r3 b : rd_hooks r = [] -> good_buf b ->
  read_line act f tt r = Some (LLine l, tt, r1) -> gets act r1 ls r2 -> read_line act f2 tt r2 = Some (o, tt, r3) -> (forall x, o <> LLine x) -> (length ls < n l)%nat ->
  exists b', good_buf b' /\ SpecLine.eventually (fun g => n_read_line act zinit room g false (mkNreader [taking n v] r b) =
    Some (match o with LErr _ e => LErr None e | _ => LPanic end, false, mkNreader [taking n v] r3 b')).
Proof. exact (taking_fails act zinit room n v f r l r1 ls r2 f2 o r3 b). Qed.
Print Assumptions C148_fails.
(** Any callback that calls ReadLine when its state asks for it: what the callbacks of that call do to the state is seen when it returns, and
    is there after the outer call. *)
Theorem C148_state {W Z} (act : Z -> zaction Z) zinit room q enter leave step f f2 (w : W) (r : reader unit Z) l r1 l2 r2 b : rd_hooks r = [] -> good_buf b -> q w = true -> q (enter w l) = false ->
  read_line act f tt r = Some (LLine l, tt, r1) -> read_line act f2 tt r1 = Some (LLine l2, tt, r2) ->
  let h := asking q enter leave step in
  exists b' line', good_buf b' /\ length line' = length l /\ SpecLine.eventually (fun g => n_read_line act zinit room g w (mkNreader [h] r b) =
    Some (LLine line', leave (LLine l2) (step (enter w l) l2), mkNreader [h] r2 b')).
Proof. exact (asking_line act zinit room q enter leave step f f2 w r l r1 l2 r2 b). Qed.
Print Assumptions C148_state.

(** Cases.  The callback reads the next line and passes the first: two lines, the second without a callback of its own. *)
Definition nest_act (_ : unit) : zaction unit := ZLast [].
Definition outs {A B} (x : option (list line_out * A * B)) : option (list line_out) := match x with Some (os, _, _) => Some os | None => None end.
Example C148_line_case :
  outs (n_lines nest_act tt (fun _ m => m) 20 3 false (new_nreader [taking (fun _ => 1%nat) (fun _ _ => HPass)] [RD (B "ab|cdef|xyz|w|q|") None] "|")) =
    Some [LLine (B "cde"); LLine (B "w|z|"); LErr None EEOF].
Proof. vm_compute. reflexivity. Qed.
(** A line that says that the next one is to be ignored; a callback that looks at the next line and fails. *)
Example C148_drop_case :
  outs (n_lines nest_act tt (fun _ m => m) 20 3 false (new_nreader [taking (fun l => if bytes_eqb l (B "skip|") then 1%nat else 0%nat) (fun l _ => if bytes_eqb l (B "skip|") then HDrop else HPass)]
    [RD (B "a|skip|b") None; RD (B "b|c|") None] "|")) = Some [LLine (B "a|"); LLine (B "c|"); LErr (Some []) EEOF] /\
  outs (n_lines nest_act tt (fun _ m => m) 20 2 false (new_nreader [taking (fun _ => 1%nat) (fun _ ls => if bytes_eqb (concat ls) (B "no|") then HErr (EText "no") else HPass)]
    [RD (B "a|no|b|c|") None] "|")) = Some [LErr None (EText "no"); LLine (B "c|")].
Proof. split; vm_compute; reflexivity. Qed.
(** A callback that switches on compression does not call ReadLine. *)
Example C148_plain_case :
  let h := fun (w : unit) l => if bytes_eqb l (B "z|") then PZlib (fun _ => PReturn w HDrop) else PReturn w HPass in
  outs (n_lines (fun _ => ZLast (B "in|")) tt (fun _ m => m) 20 2 tt (new_nreader [lifts h] [RD (B "z|out|") None] "|")) = Some [LLine (B "in|"); LLine (B "out|")].
Proof. vm_compute. reflexivity. Qed.
(** A short array: the line read by the callback takes a new one, what fits of its pieces is over the first. *)
Example C148_short_case :
  let b := mkMbuf [repeat x00 4] 0 0 in
  outs (n_lines nest_act tt (fun _ m => m) 20 1 false (mkNreader [taking (fun _ => 1%nat) (fun _ _ => HPass)] (new_reader [RD (B "abc|x") None; RD (B "yzuv|") None] "|") b)) =
    Some [LLine (B "xbc|")].
Proof. vm_compute. reflexivity. Qed.
(** The state collects the lines, those of the call in the callback and what it returned. *)
Example C148_state_case :
  let h := asking (fun w => Nat.eqb (length w) 0) (fun w l => w ++ [l]) (fun o w => w ++ [match o with LLine x => x | _ => B "none" end]) (fun w l => w ++ [l; B "seen"]) in
  match n_read_line nest_act tt (fun _ m => m) 20 [] (new_nreader [h] [RD (B "ab|cdef|x|") None] "|") with
  | Some (o, w, _) => Some (o, w)
  | None => None
  end = Some (LLine (B "cde"), [B "ab|"; B "cdef|"; B "seen"; B "cdef|"]).
Proof. vm_compute. reflexivity. Qed.
