(** Proofs about line callbacks that call ReadLine of the reader they belong to. *)
From Verif Require Import Base BaseFacts LineReader LineReentry LineShareFacts SpecLine LineFuel SpecReentry LineReentryFacts
  WriterReentry MsgReentry SpecWriterReentry WriterReentryFacts SpecMsgReentry MsgReentryFacts LineNest SpecLineNest.

Section Nest.
Context {Z : Type} (act : Z -> zaction Z) (zinit : Z) (room : nat -> nat -> nat).
Notation ev := SpecLine.eventually.

(** [r.line] holds [t]. *)
Definition filled (b : mbuf) (t : bytes) : Prop := good_buf b /\ b_slice (mb_at b) (mb_len b) b = t /\ mb_len b = length t.
Lemma filled_put b t p : filled b t -> exists b', b_do room (BPut p) b = Some b' /\ filled b' (t ++ p).
Proof.
  intros ((G1 & G2) & H1 & H2).
  assert (H : holds (mb_at b) (b_array (mb_at b) b) (S (mb_at b)) b t t).
  { unfold holds. rewrite <- H2. split; [lia|]. split; [lia|]. split; [exact G1|]. split; [reflexivity|]. split; [exact G2|]. split; [exact H1|]. split; [exact G2|].
    split; [|left; auto]. unfold b_slice in H1. rewrite <- H1 at 1. symmetry. apply firstn_skipn. }
  pose proof (holds_do room (BPut p) [] _ _ _ _ _ _ H) as D. cbn [built] in D. destruct D as (b' & u' & D1 & D2 & _). exists b'. split; [exact D1|].
  destruct D2 as (K1 & K2 & K3 & K4 & K5 & K6 & _). split; [split; [exact K3|now rewrite K4]|]. split; [exact K6|exact K4].
Qed.
Lemma filled_reset b : good_buf b -> filled (b_reset b) [].
Proof. intros [G1 G2]. unfold filled, good_buf. cbn [b_reset mb_heap mb_at mb_len length]. split; [split; [exact G1|lia]|]. split; reflexivity. Qed.
Lemma good_reset b : good_buf b -> good_buf (b_reset b).
Proof. intros G. apply (filled_reset b G). Qed.
Lemma all_puts : forall ps b t, filled b t -> exists b', b_all room (map BPut ps) b = Some b' /\ filled b' (t ++ concat ps).
Proof.
  induction ps as [|p ps IH]; intros b t F; cbn [map b_all concat]; [exists b; now rewrite app_nil_r|].
  destruct (filled_put b t p F) as (b1 & E & F1). rewrite E, app_assoc. now apply IH.
Qed.
Lemma needed_puts : forall ps n, needed (map BPut ps) n = (n + length (concat ps))%nat.
Proof. induction ps as [|p ps IH]; intros n; cbn [map needed concat]; [cbn; lia|]. rewrite IH, app_length. lia. Qed.
Lemma built_puts_all ps : built (map BPut ps) [] = Some (concat ps).
Proof. rewrite <- (app_nil_r (map BPut ps)), built_puts. reflexivity. Qed.

Section Any.
Context {W : Type}.
Notation nr := (@nreader W Z).
(** What ReadLine does in a callback. *)
Definition inner (f : nat) (w : W) (s : nr) : option (line_out * W * nr) :=
  if rd_open (nr_rest s) then n_loop act zinit room f w (n_reset s) else Some (LErr None err_closed, w, s).
(** The end of ReadLine, once a line is complete. *)
Definition finish (f : nat) (hs : list (W -> bytes -> nprog W)) (w : W) (s : nr) : option (line_out * W * nr) :=
  let i := mb_at (nr_line s) in
  let n := mb_len (nr_line s) in
  match run_nprogs act zinit (inner f) f i n hs w s with
  | None => None
  | Some (w', Some HPass, s2) => Some (LLine (b_slice i n (nr_line s2)), w', s2)
  | Some (w', Some HDrop, s2) => n_loop act zinit room f w' (n_reset s2)
  | Some (w', Some (HErr e), s2) => Some (LErr None e, w', s2)
  | Some (w', None, s2) => Some (LPanic, w', s2)
  end.

(** Up to the callbacks ReadLine is that of a reader without callbacks. *)
Lemma front (hs : list (W -> bytes -> nprog W)) w : forall f line r b o r', rd_hooks r = [] -> rd_open r = true -> filled b line ->
  read_loop act f tt line r = Some (o, tt, r') ->
  rd_hooks r' = [] /\ rd_open r' = true /\ exists ps b1, b_all room (map BPut ps) b = Some b1 /\ filled b1 (line ++ concat ps) /\
    match o with
    | LLine l => l = line ++ concat ps /\ exists k, (k <= f)%nat /\ forall g, (f <= g)%nat -> n_loop act zinit room g w (mkNreader hs r b) = finish (g - k) hs w (mkNreader hs r' b1)
    | _ => forall g, (f <= g)%nat -> n_loop act zinit room g w (mkNreader hs r b) = Some (o, w, mkNreader hs r' b1)
    end.
Proof.
  induction f as [|f IH]; intros line r b o r' Hh Ho F E; [discriminate|]. pose proof F as (G & F1 & F2). cbn [read_loop] in E.
  assert (N : exists b1, b_all room (map BPut []) b = Some b1 /\ filled b1 (line ++ concat [])) by (exists b; cbn; now rewrite app_nil_r).
  destruct ((0 <? rd_max r) && (rd_max r <=? BinInt.Z.of_nat (length line)))%Z%bool eqn:M.
  { injection E as <- <-. split; [exact Hh|]. split; [exact Ho|]. exists [], b. split; [reflexivity|]. split; [cbn; now rewrite app_nil_r|]. intros [|g] L; [lia|]. cbn [n_loop nr_rest nr_line].
    now rewrite F2, M. }
  destruct (scan act f r) as [[o1 r1]|] eqn:SC; [|discriminate]. destruct (scan_open act _ _ _ _ SC) as [O1 O2].
  destruct o1 as [[pref more]|e|].
  - destruct (filled_put b line pref F) as (b1 & B1 & Fb). destruct more.
    + destruct (IH (line ++ pref) r1 b1 o r' ltac:(congruence) ltac:(congruence) Fb E) as (H1 & H2 & ps & b2 & P1 & P2 & P3). split; [exact H1|]. split; [exact H2|].
      exists (pref :: ps), b2. split; [cbn [map b_all]; now rewrite B1|]. cbn [concat]. rewrite app_assoc. split; [exact P2|].
      assert (ST : forall g, (S f <= g)%nat -> n_loop act zinit room g w (mkNreader hs r b) = n_loop act zinit room (g - 1) w (mkNreader hs r1 b1)).
      { intros [|g] L; [lia|]. cbn [n_loop nr_rest nr_line]. rewrite F2, M, Ho, (scan_more act f g _ _ ltac:(lia) SC). cbn [negb]. unfold n_append, n_with, n_mem. cbn [nr_line nr_hooks nr_rest].
        rewrite B1. now rewrite Nat.sub_succ, Nat.sub_0_r. }
      destruct o as [l|pp e|].
      * destruct P3 as (Q1 & k & Q2 & Q3). split; [exact Q1|]. exists (S k). split; [lia|]. intros g L. rewrite ST by exact L. rewrite Q3 by lia. f_equal. lia.
      * intros g L. rewrite ST by exact L. apply P3. lia.
      * intros g L. rewrite ST by exact L. apply P3. lia.
    + rewrite O2, Hh in E. cbn [run_hooks] in E. injection E as <- <-. split; [congruence|]. split; [congruence|]. exists [pref], b1. split; [cbn [map b_all]; now rewrite B1|].
      cbn [concat]. rewrite app_nil_r. split; [exact Fb|]. split; [reflexivity|]. exists 1%nat. split; [lia|]. intros [|g] L; [lia|]. cbn [n_loop nr_rest nr_line].
      rewrite F2, M, Ho, (scan_more act f g _ _ ltac:(lia) SC). cbn [negb]. unfold n_append, n_with, n_mem. cbn [nr_line nr_hooks nr_rest]. rewrite B1. rewrite Nat.sub_succ, Nat.sub_0_r. reflexivity.
  - destruct (is_eof e && rd_zlib_on r1)%bool eqn:X.
    + destruct (IH line (with_mode false false r1) b o r' ltac:(cbn; congruence) ltac:(cbn; congruence) F E) as (H1 & H2 & ps & b2 & P1 & P2 & P3). split; [exact H1|]. split; [exact H2|].
      exists ps, b2. split; [exact P1|]. split; [exact P2|].
      assert (ST : forall g, (S f <= g)%nat -> n_loop act zinit room g w (mkNreader hs r b) = n_loop act zinit room (g - 1) w (mkNreader hs (with_mode false false r1) b)).
      { intros [|g] L; [lia|]. cbn [n_loop nr_rest nr_line]. rewrite F2, M, Ho, (scan_more act f g _ _ ltac:(lia) SC). cbn [negb]. rewrite X. now rewrite Nat.sub_succ, Nat.sub_0_r. }
      destruct o as [l|pp e'|].
      * destruct P3 as (Q1 & k & Q2 & Q3). split; [exact Q1|]. exists (S k). split; [lia|]. intros g L. rewrite ST by exact L. rewrite Q3 by lia. f_equal. lia.
      * intros g L. rewrite ST by exact L. apply P3. lia.
      * intros g L. rewrite ST by exact L. apply P3. lia.
    + injection E as <- <-. split; [congruence|]. split; [congruence|]. exists [], b. split; [reflexivity|]. split; [cbn; now rewrite app_nil_r|]. intros [|g] L; [lia|]. cbn [n_loop nr_rest nr_line].
      rewrite F2, M, Ho, (scan_more act f g _ _ ltac:(lia) SC). cbn [negb]. rewrite X. unfold n_cur. cbn [nr_line]. rewrite F1. reflexivity.
  - injection E as <- <-. split; [congruence|]. split; [congruence|]. exists [], b. split; [reflexivity|]. split; [cbn; now rewrite app_nil_r|]. intros [|g] L; [lia|]. cbn [n_loop nr_rest nr_line].
    rewrite F2, M, Ho, (scan_more act f g _ _ ltac:(lia) SC). reflexivity.
Qed.

(** Callbacks that do not call ReadLine. *)
Definition up (s : @lreader W Z) (b : mbuf) : nr := mkNreader (map lifts (lr_hooks s)) (lr_rest s) b.
Definition keeps (b b' : mbuf) : Prop := (length (mb_heap b) <= length (mb_heap b'))%nat /\ forall i, (i < length (mb_heap b))%nat -> b_array i b' = b_array i b.
Lemma keeps_refl b : keeps b b. Proof. split; auto. Qed.
Lemma keeps_trans a b c : keeps a b -> keeps b c -> keeps a c.
Proof. intros [A1 A2] [B1 B2]. split; [lia|]. intros i L. rewrite B2 by lia. auto. Qed.
Lemma lift_prog again f : forall p (s : lreader) b, good_buf b ->
  match run_prog act zinit f p s with
  | None => run_nprog act zinit again f (lift p) (up s b) = None
  | Some (w, v, s') => exists b', good_buf b' /\ keeps b b' /\ run_nprog act zinit again f (lift p) (up s b) = Some (w, v, up s' b')
  end.
Proof.
  induction p as [w v|w|k IH|n k IH|sz p IH|h IHh p IH|p IH]; intros s b G; cbn [run_prog lift run_nprog].
  - exists b. split; [exact G|]. split; [apply keeps_refl|reflexivity].
  - exists b. split; [exact G|]. split; [apply keeps_refl|reflexivity].
  - cbn [up nr_rest]. destruct (enable_zlib act zinit f (lr_rest s)) as [[o r]|]; [|reflexivity]. exact (IH o (mkLreader (lr_hooks s) r) b G).
  - cbn [up nr_rest]. destruct (reader_read act f n (lr_rest s)) as [[o r]|]; [|reflexivity]. exact (IH o (mkLreader (lr_hooks s) r) b G).
  - exact (IH (mkLreader (lr_hooks s) (set_max_line sz (lr_rest s))) b G).
  - specialize (IH (mkLreader (lr_hooks s ++ [h]) (lr_rest s)) b G). unfold up in *. cbn [lr_hooks lr_rest nr_hooks nr_rest nr_line] in *. rewrite map_app in IH. exact IH.
  - set (b1 := mkMbuf (mb_heap b ++ [[]]) (length (mb_heap b)) 0).
    assert (G1 : good_buf b1) by (split; unfold b1; cbn [mb_heap mb_at mb_len]; [rewrite app_length; cbn; lia|lia]).
    assert (K1 : keeps b b1) by (split; unfold b1; cbn [mb_heap]; [rewrite app_length; lia|]; intros i L; unfold b_array; cbn [mb_heap]; now rewrite app_nth1).
    specialize (IH (mkLreader [] (close_reader (lr_rest s))) b1 G1). destruct (run_prog act zinit f p _) as [[[w v] s']|]; [|exact IH].
    destruct IH as (b' & G' & K' & R). exists b'. split; [exact G'|]. split; [eapply keeps_trans; eauto|]. exact R.
Qed.
Lemma lift_progs again f i n l : forall hs w (s : lreader) b, good_buf b -> (i < length (mb_heap b))%nat -> b_slice i n b = l ->
  match run_progs act zinit f hs w l s with
  | None => run_nprogs act zinit again f i n (map lifts hs) w (up s b) = None
  | Some (w', v, s') => exists b', good_buf b' /\ keeps b b' /\ run_nprogs act zinit again f i n (map lifts hs) w (up s b) = Some (w', v, up s' b')
  end.
Proof.
  induction hs as [|h hs IH]; intros w s b G L E; cbn [run_progs map run_nprogs]; [exists b; split; [exact G|]; split; [apply keeps_refl|reflexivity]|].
  cbn [up nr_line]. rewrite E. pose proof (lift_prog again f (h w l) s b G) as P. change (lifts h w l) with (lift (h w l)).
  destruct (run_prog act zinit f (h w l) s) as [[[w1 v1] s1]|].
  - destruct P as (b1 & G1 & K1 & P). rewrite P. destruct v1 as [[| |e]|]; try (exists b1; split; [exact G1|]; split; [exact K1|reflexivity]).
    specialize (IH w1 s1 b1 G1). destruct K1 as [K1 K2]. specialize (IH ltac:(lia)). unfold b_slice in IH. rewrite (K2 i L) in IH. specialize (IH E).
    destruct (run_progs act zinit f hs w1 l s1) as [[[w2 v2] s2]|]; [|exact IH]. destruct IH as (b' & G' & K' & R). exists b'. split; [exact G'|]. split; [eapply keeps_trans; [split; eauto|exact K']|exact R].
  - now rewrite P.
Qed.
Theorem lift_loop : forall f w line (s : lreader) b, filled b line ->
  match re_loop act zinit f w line s with
  | None => n_loop act zinit room f w (up s b) = None
  | Some (o, w', s') => exists b', good_buf b' /\ n_loop act zinit room f w (up s b) = Some (o, w', up s' b')
  end.
Proof.
  induction f as [|f IH]; intros w line s b F; [reflexivity|]. pose proof F as (G & F1 & F2). cbn [re_loop n_loop]. cbv zeta. cbn [up nr_rest nr_line nr_hooks]. rewrite F2.
  destruct (_ && _)%bool; [exists b; split; [exact G|reflexivity]|]. destruct (negb (rd_open (lr_rest s))); [exists b; split; [exact G|reflexivity]|].
  destruct (scan act f (lr_rest s)) as [[[[pref more]|e|] r1]|]; [| | |reflexivity].
  - unfold n_append, n_with, n_mem, up. cbn [nr_line nr_hooks nr_rest]. destruct (filled_put b line pref F) as (b1 & B1 & Fb). rewrite B1. destruct more.
    + exact (IH w (line ++ pref) (mkLreader (lr_hooks s) r1) b1 Fb).
    + pose proof Fb as (Gb & Fb1 & Fb2).
      match goal with |- context [run_nprogs act zinit ?a f _ _ _ _ _] => pose proof (lift_progs a f (mb_at b1) (mb_len b1) (line ++ pref) (lr_hooks s) w (mkLreader (lr_hooks s) r1) b1 Gb ltac:(apply Gb) Fb1) as P end.
      unfold up in P. cbn [lr_hooks lr_rest] in P.
      destruct (run_progs act zinit f (lr_hooks s) w (line ++ pref) (mkLreader (lr_hooks s) r1)) as [[[w1 v1] s1]|]; [|now rewrite P].
      destruct P as (b' & G' & K' & P). rewrite P. destruct v1 as [[| |e]|]; try (exists b'; split; [exact G'|reflexivity]).
      * exists b'. split; [exact G'|]. cbn [up nr_line]. replace (b_slice (mb_at b1) (mb_len b1) b') with (line ++ pref); [reflexivity|].
        rewrite <- Fb1. unfold b_slice. now rewrite (proj2 K' _ (proj1 Gb)).
      * exact (IH w1 [] s1 (b_reset b') (filled_reset b' G')).
  - destruct (_ && _)%bool.
    + exact (IH w line (mkLreader (lr_hooks s) (with_mode false false r1)) b F).
    + exists b. split; [exact G|]. unfold n_cur, up. cbn [nr_line]. now rewrite F1.
  - exists b. split; [exact G|reflexivity].
Qed.
Theorem lift_line f w (s : lreader) b : good_buf b ->
  match re_read_line act zinit f w s with
  | None => n_read_line act zinit room f w (up s b) = None
  | Some (o, w', s') => exists b', good_buf b' /\ n_read_line act zinit room f w (up s b) = Some (o, w', up s' b')
  end.
Proof.
  intros G. unfold re_read_line, n_read_line. cbn [up nr_rest]. destruct (rd_open (lr_rest s)); [|exists b; split; [exact G|reflexivity]].
  exact (lift_loop f w [] s (b_reset b) (filled_reset b G)).
Qed.
End Any.

(** ** Callbacks that read further lines *)
Section Taking.
Variables (n : bytes -> nat) (v : bytes -> list bytes -> hook_res).
Notation h := (taking n v).
Notation nr := (@nreader bool Z).

Lemma finish_busy f (s : nr) : finish f [h] true s = Some (LLine (n_cur s), true, s).
Proof. reflexivity. Qed.
(** A call of ReadLine in the callback, and what becomes of a line in the memory. *)
Lemma inner_line f r l r' b i line : rd_hooks r = [] -> read_line act f tt r = Some (LLine l, tt, r') -> good_buf b -> inside i line b ->
  rd_hooks r' = [] /\ rd_open r' = true /\ exists b' u, good_buf b' /\ inside i (overwritten line u) b' /\ length (b_array i b') = length (b_array i b) /\
    (mb_at b = i -> (length l <= length (b_array i b))%nat -> u = l /\ mb_at b' = i) /\
    forall g, (f <= g)%nat -> inner g true (mkNreader [h] r b) = Some (LLine l, true, mkNreader [h] r' b').
Proof.
  intros Hh E G (I1 & I2 & I3). unfold read_line in E. destruct (rd_open r) eqn:Ho; [|discriminate].
  destruct (front [h] true f [] r (b_reset b) _ _ Hh Ho (filled_reset b G) E) as (H1 & H2 & ps & b1 & P1 & P2 & P3 & k & P4 & P5). cbn [app] in *. subst l.
  split; [exact H1|]. split; [exact H2|]. pose proof (encoded room (map BPut ps) b G) as B0. rewrite built_puts_all in B0. destruct B0 as (b1' & B1 & B2 & _ & _ & B3).
  rewrite P1 in B1. injection B1 as <-. destruct (B3 i line I1 I2 I3) as (u & C1 & C2 & C3 & C4). exists b1, u. split; [exact B2|]. split; [|split; [exact C2|split]].
  - unfold inside. rewrite overwritten_length, C2. split; [|auto]. destruct (Nat.eq_dec (mb_at b) i) as [N|N]; [destruct (C3 N) as [_ C5]; destruct (snd _); lia|destruct C4; lia].
  - intros Ai L. destruct (C3 Ai) as [C5 C6]. rewrite (within_all _ _ _ _ (built_puts_all ps)) in C5, C6 by (rewrite needed_puts; exact L). auto.
  - intros g L. unfold inner. cbn [nr_rest]. rewrite Ho. change (n_reset (mkNreader [h] r b)) with (mkNreader [h] r (b_reset b)). rewrite P5 by exact L. rewrite finish_busy.
    unfold n_cur. cbn [nr_line]. destruct P2 as (_ & -> & _). reflexivity.
Qed.
Lemma inner_error f r o r' b : rd_hooks r = [] -> read_line act f tt r = Some (o, tt, r') -> good_buf b -> (forall l, o <> LLine l) ->
  exists b', good_buf b' /\ forall g, (f <= g)%nat -> inner g true (mkNreader [h] r b) = Some (o, true, mkNreader [h] r' b').
Proof.
  intros Hh E G N. unfold read_line in E. destruct (rd_open r) eqn:Ho.
  - destruct (front [h] true f [] r (b_reset b) _ _ Hh Ho (filled_reset b G) E) as (H1 & H2 & ps & b1 & P1 & P2 & P3). exists b1. split; [apply P2|].
    intros g L. unfold inner. cbn [nr_rest]. rewrite Ho. change (n_reset (mkNreader [h] r b)) with (mkNreader [h] r (b_reset b)). destruct o as [l|pp e|]; [now destruct (N l)|now apply P3|now apply P3].
  - injection E as <- <-. exists b. split; [exact G|]. intros g L. unfold inner. cbn [nr_rest]. now rewrite Ho.
Qed.

Lemma takes_run vv : forall ls r r2 acc b i line, gets act r ls r2 -> rd_hooks r = [] -> rd_open r = true -> good_buf b -> inside i line b ->
  rd_hooks r2 = [] /\ rd_open r2 = true /\ exists b' line', good_buf b' /\ inside i line' b' /\ length line' = length line /\
    (mb_at b = i -> Forall (fun l => (length l <= length (b_array i b))%nat) ls ->
       line' = fold_left overwritten ls line /\ mb_at b' = i /\ length (b_array i b') = length (b_array i b)) /\
    exists F, forall g q, (F <= g)%nat -> run_nprog act zinit (inner g) q (takes (length ls) acc vv) (mkNreader [h] r b) = Some (false, Some (vv (acc ++ ls)), mkNreader [h] r2 b').
Proof.
  induction ls as [|l ls IH]; intros r r2 acc b i line T Hh Ho G I; inversion T as [|r0 f l0 r' ls0 r20 E T']; subst.
  - split; [exact Hh|]. split; [exact Ho|]. exists b, line. split; [exact G|]. split; [exact I|]. split; [reflexivity|]. split; [auto|]. exists 0%nat. intros g q _. cbn. now rewrite app_nil_r.
  - destruct (inner_line f r l r' b i line Hh E G I) as (H1 & H2 & b1 & u & G1 & I1 & L1 & X1 & P1).
    destruct (IH r' r2 (acc ++ [l]) b1 i (overwritten line u) T' H1 H2 G1 I1) as (K1 & K2 & b' & line' & G' & I' & L' & X' & F & P').
    split; [exact K1|]. split; [exact K2|]. exists b', line'. split; [exact G'|]. split; [exact I'|]. split; [now rewrite L', overwritten_length|]. split.
    + intros Ai Q. inversion Q as [|? ? Q1 Q2]; subst. destruct (X1 eq_refl Q1) as [-> A1]. cbn [fold_left]. rewrite <- L1. apply X'; [exact A1|]. now rewrite L1.
    + exists (f + F)%nat. intros g q L. cbn [length takes run_nprog]. rewrite P1 by lia. rewrite P' by lia. now rewrite <- app_assoc.
Qed.
(** A line for which the callback reads the lines [ls]. *)
Theorem taking_line f r l r1 ls r2 b : rd_hooks r = [] -> good_buf b -> read_line act f tt r = Some (LLine l, tt, r1) -> gets act r1 ls r2 -> n l = length ls ->
  exists b' c line', good_buf b' /\ (length l <= c)%nat /\ ((length l <= length (b_array (mb_at b) b))%nat -> c = length (b_array (mb_at b) b)) /\
    length line' = length l /\ (Forall (fun x => (length x <= c)%nat) ls -> line' = fold_left overwritten ls l /\ length (b_array (mb_at b') b') = c) /\
    let s2 := mkNreader [h] r2 b' in
    match v l ls with
    | HPass => ev (fun g => n_read_line act zinit room g false (mkNreader [h] r b) = Some (LLine line', false, s2))
    | HErr e => ev (fun g => n_read_line act zinit room g false (mkNreader [h] r b) = Some (LErr None e, false, s2))
    | HDrop => exists k, ev (fun g => n_read_line act zinit room (g + k) false (mkNreader [h] r b) = n_read_line act zinit room g false s2)
    end.
Proof.
  intros Hh G E T N. unfold read_line in E. destruct (rd_open r) eqn:Ho; [|discriminate].
  destruct (front [h] false f [] r (b_reset b) _ _ Hh Ho (filled_reset b G) E) as (H1 & H2 & ps & b1 & P1 & P2 & P3 & k & P4 & P5). cbn [app] in *.
  pose proof P2 as (G1 & S1 & L1). rewrite <- P3 in *.
  assert (I : inside (mb_at b1) l b1) by (split; [lia|]; rewrite <- L1; split; [exact S1|apply G1]).
  destruct (takes_run (v l) ls r1 r2 [] b1 (mb_at b1) l T H1 H2 G1 I) as (K1 & K2 & b' & line' & G' & (J1 & J2 & J3) & L' & X' & F & P').
  exists b', (length (b_array (mb_at b1) b1)), line'. split; [exact G'|]. split; [rewrite <- L1; apply G1|]. split.
  { intros Lc. apply (encoded_room room (map BPut ps) b b1 _ G (built_puts_all ps) P1). rewrite needed_puts, <- P3. exact Lc. }
  split; [exact L'|]. split; [intros Q; destruct (X' eq_refl Q) as (-> & -> & ->); auto|]. cbv zeta.
  assert (Q : forall g, (f + F <= g)%nat -> n_read_line act zinit room g false (mkNreader [h] r b) =
    match v l ls with
    | HPass => Some (LLine line', false, mkNreader [h] r2 b')
    | HErr e => Some (LErr None e, false, mkNreader [h] r2 b')
    | HDrop => n_loop act zinit room (g - k) false (n_reset (mkNreader [h] r2 b'))
    end).
  { intros g L. unfold n_read_line. cbn [nr_rest]. rewrite Ho. change (n_reset (mkNreader [h] r b)) with (mkNreader [h] r (b_reset b)). rewrite P5 by lia.
    unfold finish. cbn [nr_line]. cbn [run_nprogs]. cbn [nr_line]. rewrite S1. change (taking n v false l) with (takes (n l) [] (v l)). rewrite N, P' by lia. cbn [app].
    destruct (v l ls); [|reflexivity..]. cbn [nr_line]. rewrite L1, <- L'. now rewrite J2. }
  destruct (v l ls) as [| |e].
  - exists (f + F)%nat. exact Q.
  - exists k, (f + F)%nat. intros g L. rewrite Q by lia. unfold n_read_line. cbn [nr_rest]. rewrite K2. f_equal. lia.
  - exists (f + F)%nat. exact Q.
Qed.
(** The input ends before. *)
Lemma takes_fail vv : forall ls r r2 f o r3 m acc b, gets act r ls r2 -> rd_hooks r = [] -> rd_open r = true -> good_buf b -> read_line act f tt r2 = Some (o, tt, r3) -> (forall l, o <> LLine l) -> (length ls < m)%nat ->
  exists b' F, good_buf b' /\ forall g q, (F <= g)%nat -> run_nprog act zinit (inner g) q (takes m acc vv) (mkNreader [h] r b) =
    Some (false, match o with LErr _ e => Some (HErr e) | _ => None end, mkNreader [h] r3 b').
Proof.
  induction ls as [|l ls IH]; intros r r2 f o r3 m acc b T Hh Ho G E N L; inversion T as [|r0 f0 l0 r' ls0 r20 E0 T']; subst; (destruct m as [|m]; [cbn in L; lia|]).
  - destruct (inner_error f _ o r3 b Hh E G N) as (b' & G' & P). exists b', f. split; [exact G'|]. intros g q Lg. cbn [takes run_nprog]. rewrite P by exact Lg. destruct o as [l|pp e|]; [now destruct (N l)|reflexivity|reflexivity].
  - assert (I : inside 0 [] b) by (split; [lia|]; split; [reflexivity|cbn; lia]).
    destruct (inner_line f0 r l r' b 0%nat [] Hh E0 G I) as (H1 & H2 & b1 & u & G1 & _ & _ & _ & P1).
    destruct (IH r' r2 f o r3 m (acc ++ [l]) b1 T' H1 H2 G1 E N ltac:(cbn in L; lia)) as (b' & F & G' & P). exists b', (f0 + F)%nat. split; [exact G'|].
    intros g q Lg. cbn [takes run_nprog]. rewrite P1 by lia. apply P. lia.
Qed.
Theorem taking_fails f r l r1 ls r2 f2 o r3 b : rd_hooks r = [] -> good_buf b -> read_line act f tt r = Some (LLine l, tt, r1) -> gets act r1 ls r2 ->
  read_line act f2 tt r2 = Some (o, tt, r3) -> (forall x, o <> LLine x) -> (length ls < n l)%nat ->
  exists b', good_buf b' /\ ev (fun g => n_read_line act zinit room g false (mkNreader [h] r b) =
    Some (match o with LErr _ e => LErr None e | _ => LPanic end, false, mkNreader [h] r3 b')).
Proof.
  intros Hh G E T E2 N L. unfold read_line in E. destruct (rd_open r) eqn:Ho; [|discriminate].
  destruct (front [h] false f [] r (b_reset b) _ _ Hh Ho (filled_reset b G) E) as (H1 & H2 & ps & b1 & P1 & P2 & P3 & k & P4 & P5). cbn [app] in *.
  pose proof P2 as (G1 & S1 & L1). rewrite <- P3 in *.
  destruct (takes_fail (v l) ls r1 r2 f2 o r3 (n l) [] b1 T H1 H2 G1 E2 N L) as (b' & F & G' & P). exists b'. split; [exact G'|]. exists (f + F)%nat. intros g Lg.
  unfold n_read_line. cbn [nr_rest]. rewrite Ho. change (n_reset (mkNreader [h] r b)) with (mkNreader [h] r (b_reset b)). rewrite P5 by lia.
  unfold finish. cbn [nr_line run_nprogs]. rewrite S1. change (taking n v false l) with (takes (n l) [] (v l)). rewrite P by lia. destruct o as [x|pp e|]; [now destruct (N x)|reflexivity|reflexivity].
Qed.
End Taking.
(** The state of the callbacks of a call of ReadLine in a callback. *)
Theorem asking_line {W} q enter leave step f f2 (w : W) (r : reader unit Z) l r1 l2 r2 b : rd_hooks r = [] -> good_buf b -> q w = true -> q (enter w l) = false ->
  read_line act f tt r = Some (LLine l, tt, r1) -> read_line act f2 tt r1 = Some (LLine l2, tt, r2) ->
  let h := asking q enter leave step in
  exists b' line', good_buf b' /\ length line' = length l /\ ev (fun g => n_read_line act zinit room g w (mkNreader [h] r b) =
    Some (LLine line', leave (LLine l2) (step (enter w l) l2), mkNreader [h] r2 b')).
Proof.
  intros Hh G Q1 Q2 E E2 h. unfold read_line in E. destruct (rd_open r) eqn:Ho; [|discriminate].
  destruct (front [h] w f [] r (b_reset b) _ _ Hh Ho (filled_reset b G) E) as (H1 & H2 & ps & b1 & P1 & P2 & P3 & k & P4 & P5). cbn [app] in *.
  pose proof P2 as (G1 & S1 & L1). rewrite <- P3 in *.
  unfold read_line in E2. rewrite H2 in E2.
  destruct (front [h] (enter w l) f2 [] r1 (b_reset b1) _ _ H1 H2 (filled_reset b1 G1) E2) as (H3 & H4 & ps2 & b2 & R1 & R2 & R3 & k2 & R4 & R5). cbn [app] in *.
  pose proof R2 as (G2 & S2 & L2). rewrite <- R3 in *.
  exists b2, (b_slice (mb_at b1) (mb_len b1) b2). split; [exact G2|]. split.
  - pose proof (encoded room (map BPut ps2) b1 G1) as B0. rewrite built_puts_all in B0. destruct B0 as (b2' & B1 & _ & _ & _ & B3).
    rewrite R1 in B1. injection B1 as <-. assert (I : inside (mb_at b1) l b1) by (split; [lia|]; rewrite <- L1; split; [exact S1|apply G1]).
    destruct I as (I1 & I2 & I3). destruct (B3 _ _ I1 I2 I3) as (u & C1 & _). rewrite L1, C1. apply overwritten_length.
  - exists (f + f2)%nat. intros g L. unfold n_read_line. cbn [nr_rest]. rewrite Ho. change (n_reset (mkNreader [h] r b)) with (mkNreader [h] r (b_reset b)). rewrite P5 by lia.
    unfold finish. cbn [nr_line]. cbn [run_nprogs]. cbn [nr_line]. rewrite S1. unfold h at 1, asking at 1. rewrite Q1. cbn [run_nprog]. unfold inner at 1. cbn [nr_rest]. rewrite H2.
    change (n_reset (mkNreader [h] r1 b1)) with (mkNreader [h] r1 (b_reset b1)). rewrite R5 by lia.
    unfold finish. cbn [nr_line]. cbn [run_nprogs]. cbn [nr_line]. rewrite S2. unfold h at 1, asking at 1. rewrite Q2. cbn [run_nprog nr_line]. rewrite S2. reflexivity.
Qed.
End Nest.

Lemma line_mem_good : good_buf line_mem /\ length (b_array (mb_at line_mem) line_mem) = 2048%nat.
Proof. unfold good_buf, line_mem, b_array. cbn [mb_heap mb_at mb_len nth]. rewrite repeat_length. cbn [length]. split; [split; [lia|reflexivity]|reflexivity]. Qed.
