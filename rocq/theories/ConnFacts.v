(** Facts about addresses, for C77, C84, C85. *)
From Verif Require Import Base BaseFacts Base32Facts ConnAddr SpecConn.
From Coq Require Import ZifyBool ZifyNat ZifyN.

(** ** Hosts and ports *)

Lemma plain_not_in s : plain s <-> ~ In ":"%byte s /\ ~ In "["%byte s /\ ~ In "]"%byte s.
Proof.
  split.
  - intros H. repeat split; intros I; destruct (H _ I) as (A & C & D); congruence.
  - intros (A & C & D) b I. repeat split; intros ->; contradiction.
Qed.
Lemma bracketed_not_in s : bracketed s <-> ~ In "["%byte s /\ ~ In "]"%byte s.
Proof.
  split.
  - intros H. repeat split; intros I; destruct (H _ I) as (A & C); congruence.
  - intros (A & C) b I. repeat split; intros ->; contradiction.
Qed.

Lemma split_host_port_ok hp h p : host_port hp h p -> split_host_port hp = Ok (h, p).
Proof.
  intros [Hp [[Hh ->]|[Hh ->]]]; apply plain_not_in in Hp; destruct Hp as (P1 & P2 & P3).
  - apply plain_not_in in Hh. destruct Hh as (A & C & D). unfold split_host_port. change (B ":" ++ p) with (":"%byte :: p).
    rewrite last_cut_app by exact P1. destruct (h ++ ":"%byte :: p) as [|c hp1] eqn:E; [now destruct h|].
    assert (N : beq c "["%byte = false). { destruct h as [|x h]; injection E as <- _; [reflexivity|]. destruct (beq x "["%byte) eqn:K; [|reflexivity]. apply beq_true in K. subst x. elim C. now left. }
    rewrite N, (proj2 (contains_byte_false _ _) A). rewrite <- E.
    assert (N1 : contains_byte "["%byte (h ++ ":"%byte :: p) = false). { apply contains_byte_false. rewrite in_app_iff. cbn. intuition congruence. }
    assert (N2 : contains_byte "]"%byte (h ++ ":"%byte :: p) = false). { apply contains_byte_false. rewrite in_app_iff. cbn. intuition congruence. }
    now rewrite N1, N2.
  - apply bracketed_not_in in Hh. destruct Hh as (C & D). unfold split_host_port.
    change (B "[" ++ h ++ B "]:" ++ p) with ("["%byte :: h ++ "]"%byte :: ":"%byte :: p).
    replace (last_cut ":"%byte ("["%byte :: h ++ "]"%byte :: ":"%byte :: p)) with (Some ("["%byte :: h ++ ["]"%byte], p)).
    2: { symmetry. replace ("["%byte :: h ++ "]"%byte :: ":"%byte :: p) with (("["%byte :: h ++ ["]"%byte]) ++ ":"%byte :: p) by (cbn [app]; now rewrite <- app_assoc). now apply last_cut_app. }
    change (beq "["%byte "["%byte) with true. cbv iota.
    replace (cut "]"%byte ("["%byte :: h ++ "]"%byte :: ":"%byte :: p)) with (Some ("["%byte :: h, ":"%byte :: p)).
    2: { symmetry. change ("["%byte :: h ++ "]"%byte :: ":"%byte :: p) with (("["%byte :: h) ++ "]"%byte :: ":"%byte :: p). apply cut_app. cbn. intuition congruence. }
    cbn [length]. rewrite app_length. cbn [length]. rewrite Nat.add_1_r, Nat.eqb_refl.
    assert (N1 : contains_byte "["%byte (h ++ "]"%byte :: ":"%byte :: p) = false). { apply contains_byte_false. rewrite in_app_iff. cbn. intuition congruence. }
    assert (N2 : contains_byte "]"%byte (":"%byte :: p) = false). { apply contains_byte_false. cbn. intuition congruence. }
    now rewrite N1, N2.
Qed.

Lemma split_host_port_inv hp h p : split_host_port hp = Ok (h, p) -> host_port hp h p.
Proof.
  unfold split_host_port. destruct (last_cut ":"%byte hp) as [[before port]|] eqn:L; [|discriminate]. apply last_cut_spec in L. destruct L as [L P].
  destruct hp as [|c hp1]; [discriminate|]. destruct (beq c "["%byte) eqn:C.
  - apply beq_true in C. subst c. destruct (cut "]"%byte ("["%byte :: hp1)) as [[hh after]|] eqn:K; [|discriminate]. apply cut_spec in K. destruct K as [K N].
    destruct after as [|d after1]; [discriminate|]. destruct (Nat.eqb (length before) (S (length hh))) eqn:E; [|destruct (beq d ":"%byte); discriminate]. apply Nat.eqb_eq in E.
    destruct (contains_byte "["%byte hp1) eqn:N1; [discriminate|]. destruct (contains_byte "]"%byte (d :: after1)) eqn:N2; [discriminate|]. intros [= <- <-].
    apply contains_byte_false in N1, N2.
    assert (Q : before = hh ++ ["]"%byte] /\ d :: after1 = ":"%byte :: port).
    { rewrite L in K. replace (hh ++ "]"%byte :: d :: after1) with ((hh ++ ["]"%byte]) ++ d :: after1) in K by now rewrite <- app_assoc.
      apply app_inv_len in K; [destruct K; split; congruence|]. rewrite app_length. cbn. lia. }
    destruct Q as [Q1 Q2]. injection Q2 as -> ->.
    destruct hh as [|x hh]; [cbn in K; injection K as K; discriminate|]. cbn [app] in K. injection K as <- K. cbn [skipn]. subst hp1. rewrite in_app_iff in N1. cbn [In] in N, N1, N2.
    split; [apply plain_not_in; intuition congruence|]. right. split; [apply bracketed_not_in; intuition congruence|]. reflexivity.
  - destruct (contains_byte ":"%byte before) eqn:N0; [discriminate|]. destruct (contains_byte "["%byte (c :: hp1)) eqn:N1; [discriminate|]. destruct (contains_byte "]"%byte (c :: hp1)) eqn:N2; [discriminate|].
    intros [= <- <-]. apply contains_byte_false in N0, N1, N2. rewrite L, in_app_iff in N1, N2. cbn [In] in N1, N2.
    split; [apply plain_not_in; intuition congruence|]. left. split; [apply plain_not_in; intuition congruence|]. exact L.
Qed.

Lemma split_host_port_spec hp h p : split_host_port hp = Ok (h, p) <-> host_port hp h p.
Proof. split; [apply split_host_port_inv|apply split_host_port_ok]. Qed.

Lemma split_host_port_no_panic hp : split_host_port hp <> Panic.
Proof.
  unfold split_host_port. destruct (last_cut ":"%byte hp) as [[before port]|] eqn:L; [|discriminate]. apply last_cut_spec in L. destruct L as [L _].
  destruct hp as [|c hp1]; [now destruct before|]. destruct (beq c "["%byte).
  - destruct (cut "]"%byte (c :: hp1)) as [[hh [|d after]]|]; try discriminate. destruct (Nat.eqb _ _); [|destruct (beq d ":"%byte); discriminate].
    destruct (contains_byte _ _); [discriminate|]. destruct (contains_byte _ _); discriminate.
  - repeat (destruct (contains_byte _ _); [discriminate|]). discriminate.
Qed.

Lemma bare_host_port hp h : bare_host hp h -> host_port (hp ++ B ":" ++ B "411") h (B "411").
Proof.
  intros [[H ->]|[H ->]]; (split; [apply plain_not_in; cbn; intuition discriminate|]); [left|right]; (split; [exact H|]); [reflexivity|].
  rewrite <- !app_assoc. reflexivity.
Qed.
Lemma host_port_bare hp h p : host_port (hp ++ B ":" ++ B "411") h p -> bare_host hp h.
Proof.
  intros [Hp [[Hh E]|[Hh E]]]; apply plain_not_in in Hp; destruct Hp as (P & _).
  - left. assert (K : last_cut ":"%byte (hp ++ ":"%byte :: B "411") = last_cut ":"%byte (h ++ ":"%byte :: p)) by (f_equal; exact E).
    rewrite !last_cut_app in K; [injection K as -> _; split; [exact Hh|reflexivity]|exact P|cbn; intuition discriminate].
  - right. split; [exact Hh|]. assert (K : last_cut ":"%byte (hp ++ ":"%byte :: B "411") = last_cut ":"%byte (("["%byte :: h ++ ["]"%byte]) ++ ":"%byte :: p)).
    { f_equal. change (hp ++ ":"%byte :: B "411") with (hp ++ B ":" ++ B "411"). rewrite E. change ("["%byte :: h ++ ["]"%byte]) with (B "[" ++ h ++ B "]"). rewrite <- !app_assoc. reflexivity. }
    rewrite !last_cut_app in K; [injection K as -> _; reflexivity|exact P|cbn; intuition discriminate].
Qed.

(** ** Paths *)

Lemma trim_slashes p : no_slash_end p (trim_right_by (fun b => beq b "/"%byte) p).
Proof.
  unfold trim_right_by. assert (D : forall s, exists n, s = repeat "/"%byte n ++ drop_while (fun b => beq b "/"%byte) s).
  { induction s as [|b s [n IH]]; [now exists 0|]. cbn [drop_while]. destruct (beq b "/"%byte) eqn:E.
    - apply beq_true in E. subst b. exists (S n). cbn [repeat app]. now rewrite <- IH.
    - now exists 0. }
  assert (D2 : forall s t, drop_while (fun b => beq b "/"%byte) s <> "/"%byte :: t).
  { induction s as [|b s IH]; intros t; [discriminate|]. cbn [drop_while]. destruct (beq b "/"%byte) eqn:E; [apply IH|]. intros [= -> _]. discriminate E. }
  split.
  - destruct (D (rev p)) as [n E]. exists n. apply (f_equal (@rev byte)) in E. rewrite rev_involutive, rev_app_distr in E. rewrite E at 1. f_equal.
    clear. induction n as [|n IH]; [reflexivity|]. cbn [repeat rev]. rewrite IH. clear. induction n as [|n IH]; [reflexivity|]. cbn. now rewrite IH.
  - intros q E. apply (D2 (rev p) (rev q)). rewrite <- (rev_involutive (drop_while _ _)), E. cbn [B list_byte_of_string]. now rewrite rev_app_distr.
Qed.

Lemma no_slash_end_unique p a b : no_slash_end p a -> no_slash_end p b -> a = b.
Proof.
  intros [[n En] Ha] [[m Em] Hb].
  assert (T : forall (x y : bytes) i j, x ++ repeat "/"%byte i = y ++ repeat "/"%byte j -> length x < length y -> exists q, y = q ++ B "/").
  { intros x y i j E L. assert (F : y = firstn (length y) (x ++ repeat "/"%byte i)) by (rewrite E, firstn_app, firstn_all, Nat.sub_diag; cbn; now rewrite app_nil_r).
    assert (K : length y - length x <= i) by (apply (f_equal (@length byte)) in E; rewrite !app_length, !repeat_length in E; lia).
    rewrite firstn_app, firstn_all2 in F by lia. exists (x ++ repeat "/"%byte (length y - length x - 1)). rewrite F at 1. rewrite <- app_assoc. f_equal.
    assert (R : forall k i, k <= i -> firstn k (repeat "/"%byte i) = repeat "/"%byte k).
    { induction k as [|k IH]; intros [|i'] H; try reflexivity; [lia|]. cbn. now rewrite IH by lia. }
    rewrite R by exact K. change (B "/") with (repeat "/"%byte 1). rewrite <- repeat_app. f_equal. lia. }
  destruct (Nat.lt_trichotomy (length a) (length b)) as [L|[L|L]].
  - destruct (T a b n m) as [q Q]; [congruence|exact L|]. now elim (Hb q).
  - rewrite Em in En. apply app_inv_len in En; [|now symmetry]. destruct En; congruence.
  - destruct (T b a m n) as [q Q]; [congruence|exact L|]. now elim (Ha q).
Qed.

(** ** Schemes *)

Lemma scheme_no_colon w : Forall scheme_byte w -> ~ In ":"%byte w.
Proof.
  intros H I. rewrite Forall_forall in H. specialize (H _ I). unfold scheme_byte, upper_letter, lower_letter in H.
  change (b2n ":"%byte) with 58%N in H. destruct H as [H|[H|[H|[H|[H|H]]]]]; try discriminate H; lia.
Qed.
Lemma lowers_id w : Forall (fun b => ~ upper_letter b) w -> lowers w w.
Proof. induction 1; constructor; auto. Qed.
Lemma lowers_fun a : forall b c, lowers a b -> lowers a c -> b = c.
Proof.
  induction a as [|x a IH]; intros b c H K; inversion H; inversion K; subst; [reflexivity|]. f_equal; [|apply IH; assumption].
  repeat match goal with H : _ \/ _ |- _ => destruct H as [[? ?]|[? ?]] end; try contradiction; try congruence.
  assert (E : b2n y = b2n y0) by congruence. now rewrite <- (n2b_b2n y), <- (n2b_b2n y0), E.
Qed.

Lemma has_scheme_fun addr a b : has_scheme addr a -> has_scheme addr b -> a = b.
Proof.
  intros (w & r & E & [F _] & L) (w' & r' & E' & [F' _] & L'). rewrite E in E'.
  assert (K : cut ":"%byte (w ++ ":"%byte :: r) = cut ":"%byte (w' ++ ":"%byte :: r')) by (f_equal; exact E').
  rewrite !cut_app in K by (now apply scheme_no_colon). injection K as -> ->. now apply (lowers_fun w').
Qed.

Lemma reported parse addr u s : reports_scheme parse -> parse addr = Ok u -> has_scheme addr s -> u_scheme u = s.
Proof. intros R P H. destruct (R _ _ P) as [K|[_ K]]; [now apply (has_scheme_fun addr)|now elim (K s)]. Qed.

Lemma starts_adc w rest r : ~ In ":"%byte w -> w ++ B "://" ++ rest = B "adc" ++ r -> exists r', w = B "adc" ++ r'.
Proof.
  intros N E. destruct w as [|a [|b [|c w]]]; cbn [app B list_byte_of_string] in E.
  - discriminate E.
  - now injection E.
  - now injection E.
  - change (B "adc" ++ r) with ("a"%byte :: "d"%byte :: "c"%byte :: r) in E. injection E as -> -> -> _. now exists w.
Qed.

Lemma dispatch_err parse addr w rest : reports_scheme parse -> addr = w ++ B "://" ++ rest -> scheme_text w -> Forall (fun b => ~ upper_letter b) w ->
  has_prefix (B "adc") addr = true -> ~ In w adc_schemes -> exists e, adc_parse_addr parse addr = Err e /\ nmdc_parse_addr parse addr = Err e \/ adc_parse_addr parse addr = Panic /\ nmdc_parse_addr parse addr = Panic.
Proof.
  intros R E T U P N. assert (HS : has_scheme addr w). { exists w, (B "//" ++ rest). rewrite E. split; [reflexivity|]. split; [exact T|now apply lowers_id]. }
  unfold adc_parse_addr, nmdc_parse_addr. assert (I : exists i, index (B "://") addr = Some i).
  { destruct (index (B "://") addr) as [i|] eqn:K; [now exists i|]. apply index_none in K. elim K. exists w, rest. exact E. }
  destruct I as [i ->]. destruct (parse addr) as [u|e|] eqn:Q; cbn [bind].
  - rewrite (reported parse addr u w R Q HS).
    assert (N1 : bytes_eqb w (B "adc") = false) by (destruct (bytes_eqb w (B "adc")) eqn:K; [|reflexivity]; apply bytes_eqb_true in K; elim N; rewrite K; now left).
    assert (N2 : bytes_eqb w (B "adcs") = false) by (destruct (bytes_eqb w (B "adcs")) eqn:K; [|reflexivity]; apply bytes_eqb_true in K; elim N; rewrite K; right; now left).
    rewrite N1, N2. cbn [negb andb]. eexists. left. split; [reflexivity|].
    apply has_prefix_spec in P. destruct P as [r P]. rewrite E in P. destruct (starts_adc w rest r (scheme_no_colon _ (proj1 T)) P) as [r' W].
    assert (M : bytes_eqb w (B "nmdc") = false) by now rewrite W. rewrite M. rewrite (reported parse addr u w R Q HS), W. reflexivity.
  - exists e. left. auto.
  - exists EEOF. right. auto.
Qed.

Lemma dispatch parse addr w rest : reports_scheme parse -> addr = w ++ B "://" ++ rest -> scheme_text w -> Forall (fun b => ~ upper_letter b) w ->
  (In w adc_schemes -> dc_parse_addr parse addr = adc_parse_addr parse addr /\ forall str, dc_normalize_addr parse str addr = adc_normalize_addr parse str addr) /\
  (~ In w adc_schemes -> dc_parse_addr parse addr = nmdc_parse_addr parse addr /\ forall str, dc_normalize_addr parse str addr = nmdc_normalize_addr parse str addr).
Proof.
  intros R E T U. unfold dc_parse_addr, dc_normalize_addr. split; intros H.
  - assert (P : has_prefix (B "adc") addr = true).
    { apply has_prefix_spec. rewrite E. destruct H as [<-|[<-|[]]]; [eexists; reflexivity|]. exists (B "s" ++ B "://" ++ rest). reflexivity. }
    rewrite P. auto.
  - destruct (has_prefix (B "adc") addr) eqn:P; [|auto]. destruct (dispatch_err parse addr w rest R E T U P H) as [e [[K1 K2]|[K1 K2]]];
      unfold adc_normalize_addr, nmdc_normalize_addr; rewrite K1, K2; auto.
Qed.

(** ** Results *)

Lemma adc_parsed parse addr u : adc_parse_addr parse addr = Ok u <->
  exists u0, parse addr = Ok u0 /\ In (u_scheme u0) adc_schemes /\ u_scheme u = u_scheme u0 /\ u_host u = u_host u0 /\ u_rest u = u_rest u0 /\ no_slash_end (u_path u0) (u_path u).
Proof.
  unfold adc_parse_addr. split.
  - destruct (parse addr) as [u0|e|]; cbn [bind]; try discriminate. destruct (negb _ && negb _)%bool eqn:K; [discriminate|]. intros [= <-]. exists u0.
    split; [reflexivity|]. split; [|repeat split; apply trim_slashes].
    apply andb_false_iff in K. rewrite !negb_false_iff in K. destruct K as [K|K]; apply bytes_eqb_true in K; rewrite K; [now left|right; now left].
  - intros (u0 & -> & I & E1 & E2 & E3 & E4). cbn [bind]. assert (K : (negb (bytes_eqb (u_scheme u0) (B "adc")) && negb (bytes_eqb (u_scheme u0) (B "adcs")))%bool = false) by (destruct I as [<-|[<-|[]]]; reflexivity).
    rewrite K. f_equal. destruct u as [a b c d]. cbn in *. unfold trim_path. f_equal; try congruence. apply (no_slash_end_unique (u_path u0)); [apply trim_slashes|exact E4].
Qed.

(** what nmdc.ParseAddr parses *)
Definition with_default (addr : bytes) : bytes := match index (B "://") addr with Some _ => addr | None => B "dchub" ++ B "://" ++ addr end.

Lemma nmdc_parsed parse addr u : nmdc_parse_addr parse addr = Ok u <->
  exists u0, parse (with_default addr) = Ok u0 /\ (u_scheme u0 = B "nmdc" /\ u_scheme u = B "dchub" \/ In (u_scheme u0) nmdc_schemes /\ u_scheme u = u_scheme u0) /\
    u_host u = u_host u0 /\ u_rest u = u_rest u0 /\ no_slash_end (u_path u0) (u_path u).
Proof.
  unfold nmdc_parse_addr. fold (with_default addr). cbv zeta. split.
  - destruct (parse (with_default addr)) as [u0|e|]; cbn [bind]; try discriminate. destruct (bytes_eqb (u_scheme u0) (B "nmdc")) eqn:M.
    + apply bytes_eqb_true in M. cbn [u_scheme]. change (bytes_eqb (B "dchub") (B "dchub")) with true. cbn [negb andb]. intros [= <-]. exists u0. split; [reflexivity|]. split; [now left|].
      repeat split; apply trim_slashes.
    + destruct (negb _ && negb _)%bool eqn:K; [discriminate|]. intros [= <-]. exists u0.
      split; [reflexivity|]. split; [right|repeat split; apply trim_slashes]. split; [|reflexivity].
      apply andb_false_iff in K. rewrite !negb_false_iff in K. destruct K as [K|K]; apply bytes_eqb_true in K; rewrite K; [now left|right; now left].
  - intros (u0 & -> & I & E2 & E3 & E4). cbn [bind]. destruct u as [a b c d]. cbn [u_scheme u_host u_rest u_path] in *.
    assert (P : trim_right_by (fun b => beq b "/"%byte) (u_path u0) = c) by (apply (no_slash_end_unique (u_path u0)); [apply trim_slashes|exact E4]).
    destruct I as [[I J]|[I J]].
    + rewrite I. change (bytes_eqb (B "nmdc") (B "nmdc")) with true. cbn [u_scheme]. change (bytes_eqb (B "dchub") (B "dchub")) with true. cbn [negb andb]. unfold trim_path. cbn [u_scheme u_host u_rest u_path]. congruence.
    + replace (bytes_eqb (u_scheme u0) (B "nmdc")) with false by (destruct I as [<-|[<-|[]]]; reflexivity).
      replace (negb (bytes_eqb (u_scheme u0) (B "dchub")) && negb (bytes_eqb (u_scheme u0) (B "nmdcs")))%bool with false by (destruct I as [<-|[<-|[]]]; reflexivity).
      unfold trim_path. congruence.
Qed.

Lemma adc_normalized parse str addr s : adc_normalize_addr parse str addr = Ok s <->
  exists u h p, adc_parse_addr parse addr = Ok u /\ host_port (u_host u) h p /\ h <> [] /\ s = str u.
Proof.
  unfold adc_normalize_addr. split.
  - destruct (adc_parse_addr parse addr) as [u|e|]; cbn [bind]; try discriminate. destruct (split_host_port (u_host u)) as [[h p]|e|] eqn:E; try discriminate.
    destruct h as [|c h]; [discriminate|]. intros [= <-]. exists u, (c :: h), p. apply split_host_port_spec in E. split; [reflexivity|]. split; [exact E|]. split; [discriminate|reflexivity].
  - intros (u & h & p & -> & H & N & ->). cbn [bind]. apply split_host_port_spec in H. rewrite H. now destruct h.
Qed.

Lemma nmdc_normalized parse str addr s : nmdc_normalize_addr parse str addr = Ok s <->
  exists u h, nmdc_parse_addr parse addr = Ok u /\ ((exists p, host_port (u_host u) h p) \/ bare_host (u_host u) h) /\ h <> [] /\ s = str u.
Proof.
  unfold nmdc_normalize_addr. split.
  - destruct (nmdc_parse_addr parse addr) as [u|e|]; cbn [bind]; try discriminate. destruct (split_host_port (u_host u)) as [[h p]|e|] eqn:E; cbn [bind fst]; try discriminate.
    + destruct h as [|c h]; [discriminate|]. intros [= <-]. exists u, (c :: h). apply split_host_port_spec in E. split; [reflexivity|]. split; [left; now exists p|]. split; [discriminate|reflexivity].
    + destruct (split_host_port (u_host u ++ B ":" ++ B "411")) as [[h p]|e2|] eqn:F; cbn [bind fst]; try discriminate.
      destruct h as [|c h]; [discriminate|]. intros [= <-]. exists u, (c :: h). apply split_host_port_spec in F. apply host_port_bare in F. split; [reflexivity|]. split; [now right|]. split; [discriminate|reflexivity].
  - intros (u & h & -> & H & N & ->). cbn [bind]. destruct H as [[p H]|H].
    + apply split_host_port_spec in H. rewrite H. cbn [bind fst]. now destruct h.
    + pose proof (bare_host_port _ _ H) as K. apply split_host_port_spec in K. destruct (split_host_port (u_host u)) as [[h' p']|e|] eqn:E.
      * exfalso. apply split_host_port_spec in E. destruct E as [_ [[Q1 Q2]|[Q1 Q2]]]; destruct H as [[H1 H2]|[H1 H2]].
        -- apply plain_not_in in H1. destruct H1 as [H1 _]. apply H1. rewrite <- H2, Q2. rewrite in_app_iff. right. now left.
        -- rewrite H2 in Q2. apply plain_not_in in Q1. destruct Q1 as (_ & Q1 & _). destruct h' as [|x h']; [discriminate Q2|]. cbn [app B list_byte_of_string] in Q2. injection Q2 as <- _. apply Q1. now left.
        -- rewrite H2 in Q2. apply plain_not_in in H1. destruct H1 as (_ & H1 & _). apply H1. rewrite Q2. now left.
        -- rewrite H2 in Q2. injection Q2 as Q2. apply bracketed_not_in in H1, Q1.
           assert (C : cut "]"%byte (h ++ "]"%byte :: []) = cut "]"%byte (h' ++ "]"%byte :: ":"%byte :: p')) by (f_equal; exact Q2).
           rewrite !cut_app in C by tauto. discriminate C.
      * rewrite K. cbn [bind fst]. now destruct h.
      * now apply split_host_port_no_panic in E.
Qed.

(** ** Normalized addresses *)

Lemma no_slash_again p q : no_slash_end p q -> no_slash_end q q.
Proof. intros [_ H]. split; [exists 0; cbn; now rewrite app_nil_r|exact H]. Qed.
Lemma host_port_some hp h p : host_port hp h p -> hp <> [].
Proof. intros [_ [[_ ->]|[_ ->]]] H; [now destruct h|discriminate H]. Qed.
Lemma bare_host_some hp h : bare_host hp h -> h <> [] -> hp <> [].
Proof. intros [[_ ->]|[_ ->]] N H; [now elim N|discriminate H]. Qed.

Lemma normalize_again parse str : prints parse str ->
  (forall addr s, adc_normalize_addr parse str addr = Ok s -> adc_normalize_addr parse str s = Ok s /\ dc_normalize_addr parse str s = Ok s) /\
  (forall addr s, nmdc_normalize_addr parse str addr = Ok s -> nmdc_normalize_addr parse str s = Ok s /\ dc_normalize_addr parse str s = Ok s).
Proof.
  intros PR. split; intros addr s H.
  - apply adc_normalized in H. destruct H as (u & h & p & HP & HH & HN & ->). apply adc_parsed in HP. destruct HP as (u0 & P0 & I & E1 & E2 & E3 & E4).
    destruct (PR u) as [[t T] (u' & P' & S1 & S2 & S3 & S4)].
    { apply in_app_iff. left. now rewrite E1. } { exact (host_port_some _ _ _ HH). } { now exists addr, u0. }
    assert (A : adc_normalize_addr parse str (str u) = Ok (str u)).
    { apply adc_normalized. exists u', h, p. rewrite S2. split; [|split; [exact HH|split; [exact HN|now symmetry]]]. apply adc_parsed. exists u'. split; [exact P'|]. rewrite S1, S3, E1. repeat split; try assumption; apply (no_slash_again _ _ E4). }
    split; [exact A|]. unfold dc_normalize_addr. assert (Q : has_prefix (B "adc") (str u) = true).
    { apply has_prefix_spec. rewrite T, E1. destruct I as [<-|[<-|[]]]; [eexists; reflexivity|]. exists (B "s" ++ B "://" ++ t). reflexivity. }
    now rewrite Q.
  - apply nmdc_normalized in H. destruct H as (u & h & HP & HH & HN & ->). apply nmdc_parsed in HP. destruct HP as (u0 & P0 & I & E2 & E3 & E4).
    assert (J : In (u_scheme u) nmdc_schemes) by (destruct I as [[_ ->]|[I ->]]; [now left|exact I]).
    destruct (PR u) as [[t T] (u' & P' & S1 & S2 & S3 & S4)].
    { apply in_app_iff. now right. } { destruct HH as [[p HH]|HH]; [exact (host_port_some _ _ _ HH)|exact (bare_host_some _ _ HH HN)]. } { now exists (with_default addr), u0. }
    assert (W : with_default (str u) = str u).
    { unfold with_default. destruct (index (B "://") (str u)) as [i|] eqn:K; [reflexivity|]. apply index_none in K. elim K. exists (u_scheme u), t. exact T. }
    assert (A : nmdc_normalize_addr parse str (str u) = Ok (str u)).
    { apply nmdc_normalized. exists u', h. rewrite S2. split; [|split; [exact HH|split; [exact HN|now symmetry]]]. apply nmdc_parsed. exists u'. rewrite W. split; [exact P'|].
      split; [right; split; [now rewrite S1|reflexivity]|]. split; [reflexivity|]. split; [reflexivity|]. rewrite S3. apply (no_slash_again _ _ E4). }
    split; [exact A|]. unfold dc_normalize_addr. assert (Q : has_prefix (B "adc") (str u) = false).
    { rewrite T. destruct J as [<-|[<-|[]]]; reflexivity. }
    now rewrite Q.
Qed.
