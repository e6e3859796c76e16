(** Lemmas about encoding again what has been decoded from an ADC line. *)
From Verif Require Import Base BaseFacts Num NumFacts NumSpec SpecText Base32 Base32Facts Tiger SpecHash TigerFacts.
From Verif Require Import AdcText SpecAdc AdcTextFacts AdcValue AdcValueFacts AdcMessage AdcMessageFacts AdcCustomFacts AdcPacket AdcPacketFacts.
From Verif Require Import SpecAdcMessage SpecAdcRead SpecAdcRelay AdcReadFacts AdcReadPackets AdcExtFacts AdcStreamFacts.

(** ** Texts *)

Lemma denotes_in e s : denotes_text e s -> forall c, In c s -> c = " "%byte \/ c = x0a \/ In c e.
Proof.
  induction 1 as [|c d e s A D IH|e s A D IH|c e s A D IH]; intros b I; [now right; right|..].
  - destruct I as [->|I]; [|specialize (IH b I); cbn; tauto]. unfold an_escape in A.
    destruct (beq c "s"); [injection A as <-; tauto|]. destruct (beq c "n"); [injection A as <-; tauto|].
    destruct (beq c "\"); [injection A as <-; cbn; tauto|discriminate].
  - destruct I as [<-|I]; [cbn; tauto|]. specialize (IH b I). cbn. tauto.
  - destruct I as [<-|I]; [cbn; tauto|]. specialize (IH b I). cbn. tauto.
Qed.

Lemma reescaped c e s : denotes_text e s -> In c (escape s) -> c = "\"%byte \/ c = "s"%byte \/ c = "n"%byte \/ In c e.
Proof.
  intros D I. destruct (Byte.eqb c "\") eqn:E1; [left; now apply Byte.byte_dec_bl|].
  destruct (Byte.eqb c "s") eqn:E2; [right; left; now apply Byte.byte_dec_bl|].
  destruct (Byte.eqb c "n") eqn:E3; [right; right; left; now apply Byte.byte_dec_bl|].
  right. right. right. assert (J : In c s).
  { apply escape_in; [exact I|..]; intros ->; discriminate. }
  destruct (denotes_in e s D c J) as [->|[->|K]]; [now apply escape_no_sp in I|now apply escape_no_nl in I|exact K].
Qed.

(** The first byte stays a byte that is no selector. *)
Definition starts (d : bytes) : Prop := match d with [] => True | c :: _ => stop c end.

Lemma starts_app a b : a <> [] -> starts a -> starts (a ++ b).
Proof. destruct a; [congruence|trivial]. Qed.

Lemma escape_start c x : stop c -> exists r, escape (unescape (c :: x)) = r /\ r <> [] /\ starts r.
Proof.
  intros S. exists (escape (unescape (c :: x))). split; [reflexivity|]. pose proof (unescape_denotes (c :: x)) as D.
  set (s := unescape (c :: x)) in *. clearbody s. inversion D as [|c' d e s' A D'|e s' A D'|c' e s' A D']; subst.
  - assert (E : d = " "%byte \/ d = x0a \/ d = "\"%byte).
    { unfold an_escape in A. destruct (beq c' "s"); [injection A as <-; tauto|]. destruct (beq c' "n"); [injection A as <-; tauto|].
      destruct (beq c' "\"); [injection A as <-; tauto|discriminate]. }
    change (d :: s') with ([d] ++ s'). rewrite escape_app. split; [destruct E as [->|[->| ->]]; discriminate|].
    apply starts_app; [destruct E as [->|[->| ->]]; discriminate|]. destruct E as [->|[->| ->]]; repeat split; discriminate.
  - change ("\"%byte :: s') with (["\"%byte] ++ s'). rewrite escape_app. split; [discriminate|]. repeat split; discriminate.
  - change (c :: s') with ([c] ++ s'). rewrite escape_app.
    assert (E : escape [c] = ["\"%byte; "n"%byte] \/ escape [c] = [c]).
    { destruct S as (_ & _ & S). clear - A S. destruct c; try (now right); try (now left); congruence. }
    destruct E as [-> | ->]; (split; [discriminate|]); cbn; try exact S. repeat split; discriminate.
Qed.

(** ** Values *)

Section Relay.
Variable pf : bytes -> float_result.
Hypothesis PF : converts pf.

Lemma number_int64 x old z : int64 old -> number pf x old z -> int64 z.
Proof.
  intros O [(_ & ->)|[(_ & R)|(_ & _ & [R|(_ & ->)])]]; [split; [discriminate|reflexivity]|exact R|eapply PF; eassumption|exact O].
Qed.

Lemma value_carries k x v : simple k = true -> k <> KStrs -> ~ In " "%byte x -> value_read pf k x (zero k) v -> carries k v.
Proof.
  intros P NS S H. destruct k; cbn [value_read carries val zero simple] in *; try exact I; try discriminate.
  - eapply number_int64; [|eassumption]. split; [discriminate|reflexivity].
  - destruct H as [-> L]. now split.
  - now destruct H.
  - now destruct H.
  - destruct H as [(_ & ->)|(_ & (_ & F & ->) & L)]; [constructor|]. rewrite Forall_forall in *. intros f Hf.
    split; [now apply L|]. split; [|now apply F]. intros J. apply S. clear - Hf J. induction v as [|w l IH]; [destruct Hf|].
    destruct l as [|w' l]; [destruct Hf as [->|[]]; exact J|]. rewrite join_cons2. destruct Hf as [->|Hf]; [apply in_or_app; now left|].
    apply in_or_app. right. apply in_or_app. right. now apply IH.
  - destruct H as (es & l & (NE & F & _) & D & ->). cbn [app]. split.
    + destruct D; [congruence|discriminate].
    + clear NE. induction D as [|e w es l D Ds IH]; [constructor|]. inversion F as [|? ? N F']; subst. constructor; [|now apply IH].
      intros J. destruct (denotes_in _ _ D _ J) as [E|[E|K]]; [discriminate|discriminate|exact (N K)].
  - destruct H as [(_ & ->)|(NE & y & -> & H)]; [exact I|]. destruct k; try discriminate; cbn [value_read carries val zero] in *.
    + destruct H as [-> L]. now split.
    + now destruct H.
    + now destruct H.
Qed.

Lemma zero_carries k : simple k = true -> k <> KPath -> carries k (zero k).
Proof.
  intros S N. destruct k; cbn [carries zero simple] in *; try exact I; try constructor; try reflexivity; try discriminate; try congruence.
  cbn. intuition discriminate.
Qed.

Lemma named_carries k vs v : simple k = true -> k <> KPath -> Forall (fun x => ~ In " "%byte x) vs -> named_read pf k vs (zero k) v -> carries k v.
Proof.
  intros S N F H. destruct vs as [|x more]; cbn [named_read] in H; [subst; now apply zero_carries|]. inversion F as [|? ? F1 F2]; subst.
  destruct k; try (now apply (value_carries _ x)); try (destruct H as [_ H]; now apply (value_carries _ x)); try congruence.
  exact I.
Qed.

Lemma values_no_sp tag ws : Forall (fun x => ~ In " "%byte x) ws -> Forall (fun x => ~ In " "%byte x) (values tag ws).
Proof.
  intros F. apply Forall_forall. intros x I. unfold values in I. apply in_flat_map in I. destruct I as (w & W & I).
  destruct (bytes_eqb _ _); [|destruct I]. destruct I as [<-|[]]. rewrite Forall_forall in F. intros J. apply (F w W).
  rewrite <- (firstn_skipn 2 w). apply in_or_app. now right.
Qed.

Definition path_placed (f : field) : bool := match f_kind f with KPath => positional f | KStrs => negb (positional f) | k => simple k end.
Lemma placed_simple f : path_placed f = true -> simple (f_kind f) = true.
Proof. unfold path_placed. destruct (f_kind f); trivial. Qed.
Lemma fields_carry fs : forall ws v, forallb path_placed fs = true -> Forall (fun x => ~ In " "%byte x) ws ->
  fields_read pf fs ws (zeros fs) v -> carries_all fs v.
Proof.
  induction fs as [|f r IH]; intros ws v P W H; [exact I|]. cbn [forallb] in P. apply andb_true_iff in P as [P P'].
  cbn [fields_read zeros fst snd] in H. cbn [carries_all]. destruct H as [(T & w & ws' & -> & H & R)|(T & H & R)].
  - inversion W; subst. split; [|now apply (IH ws')]. apply (value_carries _ w); try assumption.
    + now apply placed_simple.
    + intros K. unfold path_placed in P. rewrite K in P. unfold positional in P. rewrite T in P. discriminate.
  - split; [|now apply (IH ws)]. apply (named_carries _ (values (f_tag f) ws)); try (now apply values_no_sp); try assumption.
    + now apply placed_simple.
    + intros K. unfold path_placed in P. rewrite K in P. unfold positional in P. apply bytes_eqb_true in P. congruence.
Qed.

Lemma struct_carries t ws v : Forall (fun x => ~ In " "%byte x) ws -> fields_read pf (fields_of t) ws (zeros (fields_of t)) v -> carries_all (fields_of t) v.
Proof. apply fields_carry. destruct t; vm_compute; reflexivity. Qed.

(** ** Bytes that never appear *)

Definition foreign (c : byte) : Prop := c = x00 \/ c = x0a.

Lemma foreign_digit c z : foreign c -> ~ In c (format_int z).
Proof. intros [-> | ->]; (apply format_int_notin; [reflexivity|discriminate]). Qed.
Lemma foreign_hash c h : foreign c -> ~ In c (hash_base32 h).
Proof. intros [-> | ->]; now apply hash_text_not. Qed.
Lemma foreign_text c e s : foreign c -> denotes_text e s -> ~ In c e -> ~ In c (escape s).
Proof. intros F D N I. destruct (reescaped c e s D I) as [E|[E|[E|K]]]; [..|exact (N K)]; destruct F; congruence. Qed.

Lemma in_joined c sep l x : In x l -> In c x -> In c (join sep l).
Proof.
  intros Hf J. induction l as [|w l IH]; [destruct Hf|]. destruct l as [|w' l]; [destruct Hf as [->|[]]; exact J|].
  rewrite join_cons2. destruct Hf as [->|Hf]; [apply in_or_app; now left|]. apply in_or_app. right. apply in_or_app. right. now apply IH.
Qed.

Lemma value_foreign c k x v : foreign c -> value_read pf k x (zero k) v -> ~ In c x -> ~ In c (marshal_value k v).
Proof.
  intros F. revert v. induction k; intros v H N; cbn [value_read marshal_value val zero] in *.
  - now apply (foreign_text c x).
  - now apply foreign_digit.
  - destruct v; destruct F as [-> | ->]; cbn; intuition discriminate.
  - now destruct H as [-> _].
  - now apply foreign_hash.
  - now apply foreign_hash.
  - destruct H as [(_ & ->)|(_ & (_ & _ & ->) & _)]; [intros []|exact N].
  - destruct H as (es & l & (NE & _ & ->) & D & ->). cbn [app]. unfold path_marshal. intros J. apply in_join in J.
    destruct J as [J|(w & W & J)]; [destruct F as [-> | ->]; cbn in J; intuition discriminate|].
    apply in_map_iff in W. destruct W as (s & <- & W).
    assert (E : exists e, In e es /\ denotes_text e s).
    { clear - D W. induction D as [|e s' es l D Ds IH]; [destruct W|]. destruct W as [->|W]; [exists e; split; [now left|exact D]|].
      destruct (IH W) as (e' & E & D'). exists e'. split; [now right|exact D']. }
    destruct E as (e & E & De). revert J. apply (foreign_text c e); try assumption. intros J. apply N. now apply (in_joined c (B "/") es e).
  - intros [].
  - destruct H as [(_ & ->)|(_ & y & -> & H)]; [intros []|]. now apply IHk.
Qed.

Lemma zero_foreign c k : foreign c -> k <> KSid -> ~ In c (marshal_value k (zero k)).
Proof.
  intros F. destruct k; intros NS; cbn [marshal_value zero]; try (now intros []); try congruence; try (now apply foreign_hash); try (now apply foreign_digit).
  destruct F as [-> | ->]; cbn; intuition discriminate.
Qed.

Lemma value_in_words x tag ws c : In x (values tag ws) -> Forall (fun w => ~ In c w) ws -> ~ In c x.
Proof.
  intros I F. unfold values in I. apply in_flat_map in I. destruct I as (w & W & I).
  destruct (bytes_eqb _ _); [|destruct I]. destruct I as [<-|[]]. rewrite Forall_forall in F. intros J. apply (F w W).
  rewrite <- (firstn_skipn 2 w). apply in_or_app. now right.
Qed.

Definition sid_optional (f : field) : bool := match f_kind f with KSid => (positional f || negb (f_req f))%bool | _ => true end.

Lemma word_foreign c f t : ~ In c (f_tag f) -> ~ In c t -> ~ In c (word f t).
Proof. intros A N J. unfold word in J. apply in_app_or in J. destruct J as [J|J]; [|tauto]. destruct (bytes_eqb _ _); [destruct J|tauto]. Qed.

Lemma strs_foreign c f vs v w : foreign c -> ~ In c (f_tag f) -> Forall (fun x => ~ In c x) vs -> Forall2 denotes_text vs v ->
  In w (map (fun x => word f (escape x)) v) -> ~ In c w.
Proof.
  intros F T V D I. apply in_map_iff in I. destruct I as (s & <- & W). apply word_foreign; [exact T|].
  induction D as [|e s' es l D Ds IH]; [destruct W|]. inversion V; subst. destruct W as [->|W]; [now apply (foreign_text c e)|now apply IH].
Qed.

Lemma words_foreign c fs : forall ws v w, foreign c ->
  forallb (fun f => path_placed f && sid_optional f && negb (contains_byte c (f_tag f)))%bool fs = true ->
  Forall (fun w => ~ In c w) ws -> fields_read pf fs ws (zeros fs) v -> In w (struct_words fs v) -> ~ In c w.
Proof.
  induction fs as [|f r IH]; intros ws v w F P W H I; [destruct I|]. cbn [forallb] in P. apply andb_true_iff in P as [P P'].
  apply andb_true_iff in P as [P T]. apply andb_true_iff in P as [P O]. apply negb_true_iff, contains_byte_false in T.
  cbn [fields_read zeros fst snd] in H. cbn [struct_words] in I. apply in_app_or in I.
  destruct H as [(Tg & x & ws' & -> & H & R)|(Tg & H & R)].
  - inversion W; subst. destruct I as [I|I]; [|now apply (IH ws' (snd v))]. unfold field_words in I. unfold positional in I at 1. rewrite Tg in I.
    cbn [bytes_eqb negb andb] in I.
    assert (K : f_kind f <> KStrs) by (intros K; unfold path_placed in P; rewrite K in P; unfold positional in P; rewrite Tg in P; discriminate).
    pose proof (value_foreign c _ x _ F H H2) as V. destruct f as [n t rq k]. cbn [f_kind f_tag] in *.
    change (bytes_eqb (B "#") (B "#")) with true in I. cbn [negb andb] in I.
    destruct k; try congruence; destruct I as [<-|[]]; (apply word_foreign; [exact T|exact V]).
  - destruct I as [I|I]; [|now apply (IH ws (snd v))]. unfold field_words in I.
    assert (PN : positional f = false) by (unfold positional; destruct (bytes_eqb (f_tag f) (B "#")) eqn:Q; [apply bytes_eqb_true in Q; congruence|reflexivity]).
    rewrite PN in I. cbn [negb andb] in I. destruct (negb (f_req f) && is_zero (f_kind f) (fst v))%bool eqn:Z; [destruct I|].
    assert (VS : Forall (fun x => ~ In c x) (values (f_tag f) ws)).
    { apply Forall_forall. intros x J. now apply (value_in_words x (f_tag f) ws). }
    set (vs := values (f_tag f) ws) in *. clearbody vs. destruct v as [v vr]. cbn [fst snd] in *.
    destruct f as [n t rq k]. cbn [f_kind f_tag f_req] in *.
    destruct vs as [|x more].
    + cbn [named_read] in H. subst v.
      assert (K : k <> KSid). { intros ->. unfold sid_optional in O. cbn [f_kind f_req] in O. rewrite PN in O. cbn [orb] in O. rewrite O in Z. discriminate. }
      pose proof (zero_foreign c k F K) as V.
      destruct k; try (destruct I as [<-|[]]; apply word_foreign; [exact T|exact V]). destruct I.
    + inversion VS as [|? ? VX VM]; subst. cbn [named_read] in H.
      assert (V : k <> KStrs -> ~ In c (marshal_value k v)).
      { intros K. apply (value_foreign c k x); [exact F| |exact VX]. destruct k; try exact H; try (now destruct H); congruence. }
      destruct k; try (destruct I as [<-|[]]; apply word_foreign; [exact T|apply V; discriminate]).
      now apply (strs_foreign c {| f_name := n; f_tag := t; f_req := rq; f_kind := KStrs |} (x :: more) v w).
Qed.

Lemma separated_in s ws c : separated s ws -> ~ In c s -> Forall (fun w => ~ In c w) ws.
Proof. intros (_ & _ & ->) N. apply Forall_forall. intros w W J. apply N. now apply (in_joined c (B " ") ws w). Qed.

Lemma struct_foreign c t s ws v : foreign c -> separated s ws -> ~ In c s -> fields_read pf (fields_of t) ws (zeros (fields_of t)) v ->
  ~ In c (marshal (AStruct t v)).
Proof.
  intros F W N H J. cbn [marshal] in J. rewrite marshal_struct_words in J. apply in_join in J.
  destruct J as [J|(w & I & J)]; [destruct F as [-> | ->]; cbn in J; intuition discriminate|].
  apply (words_foreign c (fields_of t) ws v w F); try assumption; [destruct F as [-> | ->]; destruct t; vm_compute; reflexivity|].
  now apply (separated_in s).
Qed.

(** ** The first byte *)

Lemma join_start sep w l : w <> [] -> starts w -> starts (join sep (w :: l)).
Proof. intros N S. destruct l as [|w' l]; [exact S|]. rewrite join_cons2. now apply starts_app. Qed.

Lemma symbol_start h : starts (hash_base32 h).
Proof.
  destruct (hash_base32 h) as [|c r] eqn:E; [exact I|]. assert (A : In c alphabet) by (apply (hash_text_in h); rewrite E; now left).
  cbn. clear - A. repeat split; intros ->; revert A; change (~ In "+"%byte alphabet) + change (~ In "-"%byte alphabet) + change (~ In " "%byte alphabet); now apply contains_byte_false.
Qed.

Definition leading (k : kind) : bool := match k with KStr | KSid | KTth | KPath => true | _ => false end.
Lemma value_start k c x v : leading k = true -> stop c -> value_read pf k (c :: x) (zero k) v ->
  marshal_value k v <> [] /\ starts (marshal_value k v).
Proof.
  intros L S H. destruct k; try discriminate; cbn [value_read marshal_value zero val] in *.
  - apply denotes_unescape in H. subst v. destruct (escape_start c x S) as (r & -> & N & Q). now split.
  - destruct H as [-> _]. split; [discriminate|exact S].
  - split; [|apply symbol_start]. destruct H as [H _]. destruct (hash_text v H) as [E _]. intros Q. rewrite Q in E. discriminate.
  - destruct H as (es & l & (NE & _ & J) & D & ->). cbn [app]. unfold path_marshal. destruct D as [|e s es l De D]; [congruence|]. cbn [map].
    destruct e as [|b e].
    + inversion De; subst. destruct D as [|e' s' es l De' D]; [discriminate|]. cbn [map]. rewrite join_cons2 in J |- *.
      cbn in J. injection J as -> J. cbn. split; [discriminate|exact S].
    + assert (b = c) as -> by (destruct es; [now injection J|rewrite join_cons2 in J; now injection J]).
      apply denotes_unescape in De. subst s. destruct (escape_start c e S) as (r & -> & N & Q). split; [|now apply join_start].
      destruct (map escape l); [exact N|]. rewrite join_cons2. destruct r; [congruence|discriminate].
Qed.

Definition tag_start (f : field) : bool := match f_tag f with c :: _ => negb (contains_byte c (B "+- #")) | [] => false end.
Lemma tagged_start fs : forall v, forallb tag_start fs = true -> starts (join (B " ") (struct_words fs v)).
Proof.
  intros v T. destruct (struct_words fs v) as [|w l] eqn:E; [exact I|].
  assert (A : exists f t, In f fs /\ w = word f t).
  { assert (W : In w (struct_words fs v)) by (rewrite E; now left). clear E T. induction fs as [|f r IH]; [destruct W|]. cbn [struct_words] in W.
    apply in_app_or in W. destruct W as [W|W].
    - unfold field_words in W. destruct (_ && _ && _)%bool; [destruct W|]. exists f. destruct v as [v vr]. cbn [fst] in W. destruct f as [n t rq k].
      cbn [f_kind] in *. destruct k; try (destruct W as [<-|[]]; eexists; split; [now left|reflexivity]).
      apply in_map_iff in W. destruct W as (x & <- & _). eexists. split; [now left|reflexivity].
    - destruct (IH (snd v) W) as (g & t & G & ->). exists g, t. split; [now right|reflexivity]. }
  destruct A as (f & t & F & ->). rewrite forallb_forall in T. specialize (T f F). unfold tag_start in T. unfold word.
  destruct (f_tag f) as [|c tg] eqn:G; [discriminate|]. apply negb_true_iff in T. apply contains_byte_false in T. cbn in T.
  assert (bytes_eqb (c :: tg) (B "#") = false) as -> by (apply bytes_eqb_false; intros [= -> ->]; apply T; cbn; tauto).
  apply join_start; [discriminate|]. cbn. repeat split; intros ->; tauto.
Qed.

(** Without words only fields that have a name can be read, and they stay zero. *)
Lemma unread_words r v : forallb (fun f => negb (f_req f)) r = true -> fields_read pf r [] (zeros r) v -> struct_words r v = [].
Proof.
  revert v. induction r as [|f r IH]; intros v Q H; [reflexivity|]. cbn [forallb] in Q. apply andb_true_iff in Q as [Q Q'].
  cbn [fields_read zeros fst snd] in H. destruct H as [(_ & w & ws' & E & _)|(T & A & R)]; [discriminate|].
  cbn [values flat_map named_read] in A. cbn [struct_words]. rewrite (IH (snd v) Q' R), app_nil_r. unfold field_words.
  rewrite Q, A, is_zero_zero. assert (positional f = false) as -> by (unfold positional; destruct (bytes_eqb (f_tag f) (B "#")) eqn:E; [apply bytes_eqb_true in E; congruence|reflexivity]).
  reflexivity.
Qed.

Lemma struct_start t s ws v : separated s ws -> starts s -> fields_read pf (fields_of t) ws (zeros (fields_of t)) v -> starts (marshal (AStruct t v)).
Proof.
  intros W S H. cbn [marshal]. rewrite marshal_struct_words.
  assert (P : forall n k r (v : vals (fld n "#" k :: r)), leading k = true -> fields_read pf (fld n "#" k :: r) ws (zeros (fld n "#" k :: r)) v ->
    (fields_read pf r [] (zeros r) (snd v) -> struct_words r (snd v) = []) -> starts (join (B " ") (struct_words (fld n "#" k :: r) v))).
  { clear H v. intros n k r v L H Z. cbn [fields_read zeros fst snd] in H. destruct H as [(_ & w & ws' & -> & H & R)|(T & _)]; [|now elim T].
    assert (Q : struct_words (fld n "#" k :: r) v = marshal_value k (fst v) :: struct_words r (snd v)).
    { cbn [struct_words]. f_equal. rewrite pos_words; [reflexivity|reflexivity|]. destruct k; try discriminate; reflexivity. }
    rewrite Q. clear Q. destruct w as [|c w].
    - destruct ws' as [|w' ws'].
      + rewrite (Z R). cbn [join]. cbn [f_kind fld] in H. destruct v as [v vr]. cbn [fst] in *. clear - H L. destruct k; try discriminate; cbn [value_read marshal_value zero val] in *.
        * inversion H; subst. exact I.
        * now destruct H as [_ H].
        * destruct H as [_ (t & tl & r & E & Lt & _)]. destruct t; discriminate.
        * destruct H as (es & l & (NE & F & J) & D & ->). destruct D as [|e s es l De D]; [congruence|]. destruct D as [|e' s' es l De' D].
          -- cbn in J. subst e. inversion De; subst. exact I.
          -- rewrite join_cons2 in J. destruct e; discriminate.
      + destruct W as (_ & _ & ->). rewrite join_cons2 in S. cbn in S. destruct S as (_ & _ & S). congruence.
    - assert (C : stop c). { destruct W as (_ & _ & ->). destruct ws'; [exact S|]. rewrite join_cons2 in S. exact S. }
      destruct (value_start k c w (fst v) L C H) as [N Q]. now apply join_start. }
  destruct t; try (apply tagged_start; reflexivity).
  all: apply P; [reflexivity|exact H|]; apply unread_words; reflexivity.
Qed.

(** ** Status *)

Lemma status_code_any sev code : (0 <= code < 100)%Z -> (code = 0 \/ 0 <= sev)%Z -> int64 (100 * sev + code) ->
  signed_decimal (format_int sev ++ fmt_02d code) (100 * sev + code).
Proof.
  intros C S R. destruct (Z.ltb_spec sev 0) as [L|L]; [|now apply status_code].
  assert (code = 0)%Z as -> by lia. rewrite fmt_02d_small by lia. apply signed_decimal_iff. unfold format_int. apply Z.ltb_lt in L. rewrite L.
  apply Z.ltb_lt in L. cbn [app].
  replace (100 * sev + 0)%Z with (- Z.of_N (100 * Z.to_N (- sev)))%Z by lia. constructor.
  - pose proof (format_uint_not_nil (Z.to_N (- sev))). destruct (format_uint (Z.to_N (- sev))); [congruence|discriminate].
  - rewrite digits_acc_app, digits_format. unfold two_digits. cbn [digits_acc]. rewrite !is_digit_digit, !digit_val_digit by reflexivity. f_equal. set (v := Z.to_N (- sev)). change (Z.to_N 0 / 10)%N with 0%N. change (Z.to_N 0 mod 10)%N with 0%N. lia.
Qed.

Lemma head_plain sev code : ~ In " "%byte (format_int sev ++ fmt_02d code).
Proof.
  intros I. apply in_app_or in I. destruct I as [I|I]; [apply format_int_plain in I; tauto|].
  unfold fmt_02d in I. destruct (length (format_int code) <? 2)%nat; [destruct I as [I|I]; [discriminate|]|]; apply format_int_plain in I; tauto.
Qed.

Lemma status_survives st n : int64 n -> st_sev st = Z.quot n 100 -> st_code st = Z.rem n 100 ->
  (status_read (status_marshal st) st <-> (0 <= st_code st)%Z).
Proof.
  intros R Q M. pose proof (Z.quot_rem' n 100) as E.
  assert (B1 : (Z.abs (Z.rem n 100) < 100)%Z) by (apply Z.rem_bound_abs; lia).
  assert (SG : (0 < Z.rem n 100 -> 0 <= Z.quot n 100)%Z).
  { intros P. destruct (Z.le_gt_cases 0 n); [apply Z.quot_pos; lia|]. pose proof (Z.rem_nonpos n 100). lia. }
  split.
  - intros H. destruct (Z.le_gt_cases 0 (st_code st)) as [L|L]; [exact L|exfalso].
    apply status_decoded in H. unfold status_unmarshal in H. rewrite status_text, cut_app in H by apply head_plain.
    apply bind_ok in H. destruct H as (k & H & _). apply parse_int64_spec in H. destruct H as [H _].
    assert (F : exists r, fmt_02d (st_code st) = "-"%byte :: r).
    { unfold fmt_02d, format_int. apply Z.ltb_lt in L. rewrite L. pose proof (format_uint_not_nil (Z.to_N (- st_code st))).
      destruct (format_uint _) as [|c r]; [congruence|]. exists (c :: r). reflexivity. }
    destruct F as (r & F). rewrite F in H.
    assert (N0 : exists c x, format_int (st_sev st) = c :: x).
    { unfold format_int. destruct (st_sev st <? 0)%Z; [eauto|]. pose proof (format_uint_not_nil (Z.to_N (st_sev st))).
      destruct (format_uint _) as [|c x]; [congruence|eauto]. }
    destruct N0 as (c & x & N0). rewrite N0 in H. cbn [app] in H.
    assert (X : forall a b v, digits_acc a (b ++ "-"%byte :: r) <> Some v).
    { intros a b v X. rewrite digits_acc_app in X. destruct (digits_acc a b); discriminate. }
    inversion H as [d m N1 G|d m N1 G|d m N1 G]; subst; try (now apply X in G).
    change (c :: x ++ "-"%byte :: r) with ((c :: x) ++ "-"%byte :: r) in G. now apply X in G.
  - intros P. apply status_decoded. unfold status_unmarshal. rewrite status_text, cut_app.
    2:{ apply head_no_space. lia. }
    assert (D : signed_decimal (format_int (st_sev st) ++ fmt_02d (st_code st)) n).
    { replace n with (100 * st_sev st + st_code st)%Z by lia. apply status_code_any; [lia|lia|]. now replace (100 * st_sev st + st_code st)%Z with n by lia. }
    assert (P64 : parse_int64 (format_int (st_sev st) ++ fmt_02d (st_code st)) = Ok n).
    { apply parse_int64_spec. split; [now apply signed_decimal_iff|now apply int64_iff]. }
    rewrite P64. cbn [bind]. rewrite unescape_escape, <- Q, <- M. now destruct st.
Qed.

(** ** Features *)

Lemma split_joined c l w : In w l -> In (hd [] (split_byte c w)) (split_byte c (join [c] l)).
Proof.
  assert (H : forall w, In (hd [] (split_byte c w)) (split_byte c w)) by (intros w'; pose proof (split_byte_not_nil c w'); destruct (split_byte c w'); [congruence|now left]).
  induction l as [|x l IH]; intros I; [destruct I|]. destruct l as [|y l]; [destruct I as [->|[]]; apply H|].
  rewrite join_cons2. change ([c] ++ join [c] (y :: l)) with (c :: join [c] (y :: l)). rewrite split_byte_app'. apply in_or_app.
  destruct I as [->|I]; [left; apply H|right; now apply IH].
Qed.

Lemma denotes_length e s : denotes_text e s -> length s <= length e /\ (length s = length e -> s = e).
Proof.
  induction 1 as [|c d e s A D [L IH]|e s A D [L IH]|c e s A D [L IH]]; cbn [length]; split; try lia; intros E; try lia; try reflexivity; f_equal; apply IH; lia.
Qed.

Definition mod_word (e : bytes * bool) : bytes := (if snd e then B "AD" else B "RM") ++ fst e.
Lemma mod_marshal_words m : modfeatures_marshal m = join (B " ") (map mod_word m).
Proof. unfold modfeatures_marshal. f_equal. apply map_ext. now intros [f []]. Qed.

Lemma values_in tag x ws : length tag = 2 -> In (tag ++ x) ws -> In x (values tag ws).
Proof.
  intros L I. unfold values. apply in_flat_map. exists (tag ++ x). split; [exact I|].
  rewrite <- L, firstn_app, firstn_all, Nat.sub_diag. cbn [firstn]. rewrite app_nil_r, bytes_eqb_refl.
  left. now rewrite skipn_app, skipn_all, Nat.sub_diag.
Qed.

Lemma hd_split_tag c tag x : ~ In c tag -> hd [] (split_byte c (tag ++ x)) = tag ++ hd [] (split_byte c x).
Proof.
  induction tag as [|b t IH]; intros N; [reflexivity|]. cbn [app split_byte]. cbn [In] in N.
  destruct (beq b c) eqn:E; [apply beq_true in E; tauto|]. rewrite <- IH by tauto. destruct (split_byte c (t ++ x)) eqn:S; [|reflexivity].
  now apply split_byte_not_nil in S.
Qed.

Lemma hd_split_length c x : length (hd [] (split_byte c x)) <= length x /\ (length (hd [] (split_byte c x)) = length x -> ~ In c x).
Proof.
  induction x as [|b x [L IH]]; [split; [apply le_n|intros _ []]|]. cbn [split_byte]. destruct (beq b c) eqn:E.
  - cbn. split; [lia|]. intros H. discriminate.
  - destruct (split_byte c x) eqn:S; [now apply split_byte_not_nil in S|]. cbn [hd length] in *. split; [lia|].
    intros Q [->|I]; [rewrite beq_refl in E; discriminate|]. apply IH; [lia|exact I].
Qed.

Lemma sup_plain m : distinct m -> (forall e, In e m -> length (fst e) = 4) ->
  ((exists ws, separated (modfeatures_marshal m) ws /\ features_read ws m) <-> survives (ASup m)).
Proof.
  intros D L4. cbn [survives]. split.
  - intros (ws & W & add & rm & A & R & F & _ & _). apply Forall_forall. intros [f b] I. cbn [fst].
    pose proof (L4 _ I) as L. cbn [fst] in L. apply separated_split in W. rewrite mod_marshal_words in W.
    pose proof (split_joined " " (map mod_word m) (mod_word (f, b)) (in_map mod_word _ _ I)) as J. change [" "%byte] with (B " ") in J. rewrite W in J.
    unfold mod_word in J. cbn [fst snd] in J. rewrite hd_split_tag in J by (destruct b; cbn; intuition discriminate).
    set (h := hd [] (split_byte " " f)) in *.
    assert (H : exists s, denotes_text h s /\ length s = 4).
    { rewrite Forall_forall in F. apply unescapes in A, R. exists (unescape h). split; [apply unescape_denotes|]. apply F. apply in_or_app.
      destruct b; [left; rewrite <- A|right; rewrite <- R]; apply in_map, values_in; auto. }
    destruct H as (s & H & LS). destruct (denotes_length h s H) as [L1 Q1]. destruct (hd_split_length " " f) as [L2 Q2]. fold h in L2, Q2.
    assert (NS : ~ In " "%byte f) by (apply Q2; lia). split; [exact NS|].
    assert (h = f) as EH by (unfold h; rewrite split_byte_notin by exact NS; reflexivity). rewrite EH in *. rewrite Q1 in H by lia. exact H.
  - intros S. rewrite Forall_forall in S. destruct m as [|e m'].
    + exists [[]]. split; [split; [discriminate|]; split; [constructor; [intros []|constructor]|reflexivity]|].
      exists [], []. split; [constructor|]. split; [constructor|]. split; [constructor|]. split; [constructor|]. intros k b. cbn [In]. tauto.
    + set (m := e :: m') in *. exists (map mod_word m). split.
      { split; [discriminate|]. split; [|apply mod_marshal_words]. apply Forall_forall. intros w I. apply in_map_iff in I. destruct I as (x & <- & I).
        destruct (S x I) as [N _]. unfold mod_word. intros J. apply in_app_or in J. destruct J as [J|J]; [destruct (snd x); cbn in J; intuition discriminate|exact (N J)]. }
      assert (V : values (B "AD") (map mod_word m) = map fst (filter snd m) /\ values (B "RM") (map mod_word m) = map fst (filter (fun x => negb (snd x)) m)).
      { clear. induction m as [|[f b] m [I1 I2]]; [split; reflexivity|]. cbn [map].
        assert (V : forall t w l, values t (w :: l) = (if bytes_eqb (firstn 2 w) t then [skipn 2 w] else []) ++ values t l) by reflexivity.
        rewrite !V, I1, I2. destruct b; split; reflexivity. }
      destruct V as [V1 V2]. exists (map fst (filter snd m)), (map fst (filter (fun x => negb (snd x)) m)). rewrite V1, V2.
      assert (SELF : forall l, (forall x, In x l -> In x m) -> Forall2 denotes_text (map fst l) (map fst l)).
      { induction l as [|x l IH]; intros Q; [constructor|]. cbn [map]. constructor; [apply S, Q; now left|]. apply IH. intros y Y. apply Q. now right. }
      split; [apply SELF; intros x X; now apply filter_In in X|]. split; [apply SELF; intros x X; now apply filter_In in X|].
      split; [|split; [exact D|]].
      { apply Forall_forall. intros f I. apply in_app_or in I. destruct I as [I|I]; apply in_map_iff in I; destruct I as (x & <- & I); apply filter_In in I; now apply L4. }
      assert (K : forall k (b : bool), In k (map fst (filter (fun x : bytes * bool => Bool.eqb (snd x) b) m)) <-> In (k, b) m).
      { intros k b. split.
        - intros I. apply in_map_iff in I. destruct I as ([x y] & <- & I). apply filter_In in I. destruct I as [I J]. apply eqb_prop in J. cbn in J. now subst y.
        - intros I. apply in_map_iff. exists (k, b). split; [reflexivity|]. apply filter_In. split; [exact I|apply eqb_reflx]. }
      assert (Y1 : filter snd m = filter (fun x : bytes * bool => Bool.eqb (snd x) true) m) by (apply filter_ext; intros [a []]; reflexivity).
      assert (Y2 : filter (fun x => negb (snd x)) m = filter (fun x : bytes * bool => Bool.eqb (snd x) false) m) by (apply filter_ext; intros [a []]; reflexivity).
      rewrite Y1, Y2. intros k b. rewrite !K. split.
      * intros I. destruct b; [now left|]. right. repeat split; [exact I|]. intros J. clear - D I J. unfold distinct in D.
        assert (U : forall b1 b2, In (k, b1) m -> In (k, b2) m -> b1 = b2).
        { clear I J. induction m as [|[x y] m IH]; [intros b1 b2 []|]. cbn [map fst] in D. inversion D as [|? ? ND D']; subst.
          intros b1 b2 [[= -> ->]|I] [[= ->]|J]; try congruence; [elim ND; now apply (in_map fst) in J|subst; elim ND; now apply (in_map fst) in I|now apply IH]. }
        specialize (U _ _ I J). discriminate.
      * intros [(-> & I)|(-> & I & _)]; exact I.
Qed.
Lemma features_length ws m : features_read ws m -> distinct m /\ forall e, In e m -> length (fst e) = 4.
Proof.
  intros (add0 & rm0 & _ & _ & L0 & D & E0). split; [exact D|].
  intros [f b] I. apply E0 in I. rewrite Forall_forall in L0. apply L0. apply in_or_app. tauto.
Qed.
Lemma sup_survives ws0 m : features_read ws0 m ->
  ((exists ws, separated (modfeatures_marshal m) ws /\ features_read ws m) <-> survives (ASup m)).
Proof. intros F. destruct (features_length ws0 m F). now apply sup_plain. Qed.

(** ** Messages *)

Lemma get_foreign c s g : foreign c -> get_read s g -> ~ In c s -> ~ In c (get_marshal g).
Proof.
  intros F (t & p & a & b & tl & -> & _ & _ & _ & _ & T & P & _) N I.
  assert (NT : ~ In c t) by (intros J; apply N; apply in_or_app; now left).
  assert (NP : ~ In c p) by (intros J; apply N; apply in_or_app; right; apply in_or_app; right; apply in_or_app; now left).
  unfold get_marshal in I. repeat (apply in_app_or in I; destruct I as [I|I]).
  all: try (revert I; now apply foreign_digit). all: try (revert I; eapply foreign_text; eassumption).
  all: try (destruct F as [-> | ->]; cbn in I; intuition discriminate).
  all: destruct (g_comp g); [|destruct I]; destruct F as [-> | ->]; cbn in I; intuition discriminate.
Qed.

Lemma get_start s g : get_read s g -> starts s -> starts (get_marshal g).
Proof.
  intros (t & p & a & b & tl & -> & _ & _ & _ & _ & T & _) S. unfold get_marshal. destruct t as [|c t]; [destruct S as (_ & _ & S); now elim S|].
  apply denotes_unescape in T. rewrite T. destruct (escape_start c t S) as (r & -> & N & Q). now apply starts_app.
Qed.

Lemma status_start s st : status_read s st -> starts s -> starts (status_marshal st).
Proof.
  intros (h & tl & n & -> & _ & D & _ & _ & Q & _) S. unfold status_marshal.
  assert (P : (0 <= n)%Z).
  { destruct D as (d & v & D & [(-> & ->)|[(-> & ->)|(-> & ->)]]); try lia. destruct S as (_ & S & _). now elim S. }
  rewrite Q. assert (Z.quot n 100 >= 0)%Z by (apply Z.le_ge, Z.quot_pos; lia).
  unfold format_int. destruct (Z.ltb_spec (Z.quot n 100) 0); [lia|]. pose proof (format_uint_not_nil (Z.to_N (Z.quot n 100))) as NN.
  apply starts_app; [exact NN|]. destruct (format_uint _) as [|c r] eqn:E; [congruence|]. cbn.
  assert (X : forall c', is_digit c' = false -> c <> c').
  { intros c' K ->. apply (format_uint_notin c' (Z.to_N (Z.quot n 100)) K). rewrite E. now left. }
  repeat split; apply X; reflexivity.
Qed.

Lemma sup_foreign c ws m : features_read ws m -> c = x00 -> Forall (fun w => ~ In c w) ws -> ~ In c (modfeatures_marshal m).
Proof.
  intros (add & rm & A & R & _ & _ & E) -> W I. rewrite mod_marshal_words in I. apply in_join in I.
  destruct I as [I|(w & X & I)]; [cbn in I; intuition discriminate|]. apply in_map_iff in X. destruct X as ([f b] & <- & X).
  unfold mod_word in I. cbn [fst snd] in I. apply in_app_or in I. destruct I as [I|I]; [destruct b; cbn in I; intuition discriminate|].
  assert (G : forall tag l, Forall2 denotes_text (values tag ws) l -> ~ In f l).
  { intros tag l D J.
    assert (V : Forall (fun x => ~ In x00 x) (values tag ws)) by (apply Forall_forall; intros x Y; now apply (value_in_words x tag ws)).
    clear A R E W X. induction D as [|e s es l D Ds IH]; [destruct J|]. inversion V; subst. destruct J as [->|J]; [|now apply IH].
    destruct (denotes_in _ _ D _ I) as [Q|[Q|Q]]; [discriminate|discriminate|tauto]. }
  apply E in X. destruct X as [(_ & X)|(_ & X & _)]; [exact (G _ _ A X)|exact (G _ _ R X)].
Qed.

Lemma sup_lines m : ~ In x0a (modfeatures_marshal m) <-> Forall (fun e => ~ In x0a (fst e)) m.
Proof.
  rewrite mod_marshal_words. split.
  - intros N. apply Forall_forall. intros e E I. apply N. apply (in_joined _ _ (map mod_word m) (mod_word e)); [now apply in_map|].
    unfold mod_word. apply in_or_app. now right.
  - intros F I. apply in_join in I. destruct I as [I|(w & X & I)]; [cbn in I; intuition discriminate|]. apply in_map_iff in X. destruct X as ([f b] & <- & X).
    unfold mod_word in I. cbn [fst snd] in I. apply in_app_or in I. destruct I as [I|I]; [destruct b; cbn in I; intuition discriminate|].
    rewrite Forall_forall in F. exact (F _ X I).
Qed.

Lemma sup_start m : starts (modfeatures_marshal m).
Proof.
  rewrite mod_marshal_words. destruct m as [|[f b] m]; [exact I|]. cbn [map]. apply join_start; [destruct b; discriminate|].
  destruct b; repeat split; discriminate.
Qed.

Lemma status_foreign c s st : foreign c -> status_read s st -> ~ In c s -> ~ In c (status_marshal st).
Proof.
  intros F (h & tl & n & -> & _ & _ & _ & M & _) N I. unfold status_marshal in I. repeat (apply in_app_or in I; destruct I as [I|I]).
  - revert I. now apply foreign_digit.
  - unfold fmt_02d in I. destruct (_ <? _)%nat; [destruct I as [I|I]; [destruct F; subst; discriminate|]|]; revert I; now apply foreign_digit.
  - destruct F as [-> | ->]; cbn in I; intuition discriminate.
  - destruct M as [(_ & M)|(e & -> & D)]; [rewrite M in I; destruct I|]. revert I. apply (foreign_text c e); try assumption.
    intros J. apply N. apply in_or_app. right. now right.
Qed.

Lemma relay_message name d m : message_read pf name d m ->
  cmd m = name /\ (~ In x00 d -> ~ In x00 (marshal m)) /\ (starts d -> starts (marshal m)) /\
  (message_read pf name (marshal m) m <-> survives m) /\
  (~ In x0a d -> (~ In x0a (marshal m) <-> match m with ASup f => Forall (fun e => ~ In x0a (fst e)) f | _ => True end)).
Proof.
  assert (F0 : foreign x00) by now left. assert (F1 : foreign x0a) by now right.
  intros H. destruct H as [n t s ws v C W F|s ws m W F|s st F|s|s|s g F|s g F|s L|s salt F|n s A O].
  - split; [clear - C; cbn [codes In] in C; repeat (destruct C as [[= <- <-]|C]; [reflexivity|]); destruct C|].
    split; [intros N; now apply (struct_foreign x00 t s ws)|]. split; [intros S; now apply (struct_start t s ws)|]. split.
    + split; [exact (fun _ => I)|]. intros _. pose proof (struct_carries t ws v (proj1 (proj2 W)) F) as K.
      pose proof (message_roundtrip pf t v K) as R. destruct (struct_iff pf t (marshal (AStruct t v)) _ (zeros (fields_of t)) v (split_separated _) (zeros_sized _)) as [X _].
      apply (mr_struct pf n t _ (split_byte " " (marshal (AStruct t v)))); [exact C|apply split_separated|].
      apply (struct_read pf t (marshal (AStruct t v)) _ _ _ (split_separated _) (zeros_sizes _)). exact R.
    + intros N. split; [trivial|]. intros _. now apply (struct_foreign x0a t s ws).
  - split; [reflexivity|]. cbn [marshal]. split; [intros N; apply (sup_foreign x00 ws); [exact F|reflexivity|now apply (separated_in s)]|].
    split; [intros _; apply sup_start|]. split; [|intros _; apply sup_lines]. rewrite <- (sup_survives ws m F). split.
    + intros H. inversion H; subst; eauto.
    + intros (ws' & W' & F'). now apply (mr_sup pf _ ws').
  - split; [reflexivity|]. cbn [marshal]. split; [intros N; now apply (status_foreign x00 s)|]. split; [intros S; now apply (status_start s)|].
    assert (K := F). destruct K as (h & tl & n & _ & _ & _ & R & _ & Q & M). split.
    + cbn [survives]. rewrite <- (status_survives st n R Q M). split; [|now constructor]. intros H. inversion H; subst; trivial.
    + intros N. split; [trivial|]. intros _. now apply (status_foreign x0a s).
  - cbn [marshal cmd survives starts]. repeat split; trivial; try (intros _ []). intros _. constructor.
  - cbn [marshal cmd survives starts]. repeat split; trivial; try (intros _ []). intros _. constructor.
  - split; [reflexivity|]. cbn [marshal]. split; [intros N; now apply (get_foreign x00 s)|]. split; [intros S; now apply (get_start s)|]. split.
    + split; [exact (fun _ => I)|]. intros _. constructor. assert (K := F). destruct K as (t & p & a & b & tl & _ & _ & _ & _ & _ & _ & _ & _ & R1 & _ & R2 & _).
      apply (get_iff _ g new_get eq_refl). rewrite get_roundtrip by assumption. cbn [new_get g_comp]. rewrite orb_false_r. now destruct g.
    + intros N. split; [trivial|]. intros _. now apply (get_foreign x0a s).
  - split; [reflexivity|]. cbn [marshal]. split; [intros N; now apply (get_foreign x00 s)|]. split; [intros S; now apply (get_start s)|]. split.
    + split; [exact (fun _ => I)|]. intros _. constructor. assert (K := F). destruct K as (t & p & a & b & tl & _ & _ & _ & _ & _ & _ & _ & _ & R1 & _ & R2 & _).
      apply (get_iff _ g new_get eq_refl). rewrite get_roundtrip by assumption. cbn [new_get g_comp]. rewrite orb_false_r. now destruct g.
    + intros N. split; [trivial|]. intros _. now apply (get_foreign x0a s).
  - cbn [marshal cmd survives]. repeat split; trivial. intros _. now constructor.
  - split; [reflexivity|]. cbn [marshal]. unfold gpa_marshal. change (b32_encode salt) with (hash_base32 salt).
    split; [intros _; now apply foreign_hash|]. split; [intros _; apply symbol_start|]. split.
    + split; [exact (fun _ => I)|]. intros _. constructor. apply salt_iff. exact (gpa_roundtrip salt).
    + intros _. split; [trivial|]. intros _. now apply foreign_hash.
  - cbn [marshal cmd survives]. repeat split; trivial. intros _. now constructor.
Qed.

(** ** Packets *)

Lemma headed_in n data id d : headed n data id d -> (forall c, In c id -> In c data) /\ (forall c, In c d -> In c data) /\ length id = n.
Proof.
  destruct 1 as [a L|id L|id c d L C].
  - split; [trivial|]. split; [intros c []|]. rewrite app_length. exact L.
  - split; [intros c I; apply in_or_app; now left|]. split; [intros c []|exact L].
  - split; [intros b I; apply in_or_app; now left|]. split; [|exact L]. intros b I. apply in_or_app. right. right. apply in_or_app. now left.
Qed.

(** Of a line only the last byte of the identifiers can be the line feed. *)
Lemma headed_line n q id d : ~ In x0a q -> headed n (q ++ [x0a]) id d -> ~ In x0a d.
Proof.
  intros N H. inversion H as [a L E|id' L E|id' c d' L C E]; subst; try (intros []).
  rewrite app_comm_cons, app_assoc in E. apply app_inj_tail in E. destruct E as [<- _].
  intros I. apply N. apply in_or_app. right. now right.
Qed.

Lemma selection_in x sel d : selection x sel d ->
  (forall c, In c d -> In c x) /\ (forall s c, In s sel -> In c (fst s) -> In c x) /\ Forall (fun s => length (fst s) = 4) sel /\ starts d.
Proof.
  induction 1 as [|c d S|x sel d H (A & C & D & E)|f x sel d L H (A & C & D & E)|f x sel d L H (A & C & D & E)].
  - repeat split; [trivial|intros s c []|constructor].
  - split; [trivial|]. split; [intros s b []|]. split; [constructor|exact S].
  - split; [intros c I; right; now apply A|]. split; [intros s c I J; right; now apply (C s)|]. now split.
  - split; [intros c I; right; apply in_or_app; right; now apply A|]. split; [|split; [now constructor|exact E]].
    intros s c [<-|I] J; right; apply in_or_app; [now left|right; now apply (C s)].
  - split; [intros c I; right; apply in_or_app; right; now apply A|]. split; [|split; [now constructor|exact E]].
    intros s c [<-|I] J; right; apply in_or_app; [now left|right; now apply (C s)].
Qed.

Definition feature_starts (q : packet) (d : bytes) : Prop := match q with PFeature _ _ _ => starts d | _ => True end.

Lemma read_parts l q name d : packet_read l q -> raw q name d ->
  parts_ok q /\ feature_starts q d /\ length name = 3 /\ ~ In x00 name /\ ~ In x00 d.
Proof.
  intros (k & n & data & (L & F) & N & D) R.
  assert (NN : ~ In x00 n /\ ~ In x00 data).
  { destruct F as [->|(d' & -> & ->)]; split; intros I; apply N; right; apply in_or_app; auto. right. now right. }
  destruct NN as [N1 N2].
  assert (SI : forall id, length id = 4 -> (forall c, In c id -> In c data) -> sid_ok id) by (intros id L4 I; split; [exact L4|intros J; now apply N2, I]).
  unfold raw in R. destruct D as [d'|d'|d'|data id d' H|data ids id to d' H E Li|data ids id to d' H E Li|data id x sel d' H S|data t cid d' H T];
    cbn [message] in R; injection R as -> ->; cbn [parts_ok feature_starts].
  1-3: repeat split; try assumption; intros I; apply N2; apply in_or_app; now left.
  - apply headed_in in H. destruct H as (A & C & L4). split; [now apply SI|]. split; [exact I|]. split; [exact L|]. split; [exact N1|]. intros I. now apply N2, C.
  - apply headed_in in H. destruct H as (A & C & L4). subst ids. rewrite app_length in L4. cbn [length] in L4.
    assert (S1 : sid_ok id) by (apply SI; [exact Li|intros c I; apply A, in_or_app; now left]).
    assert (S2 : sid_ok to) by (apply SI; [lia|intros c I; apply A, in_or_app; right; now right]).
    split; [now split|]. split; [exact I|]. split; [exact L|]. split; [exact N1|]. intros I. now apply N2, C.
  - apply headed_in in H. destruct H as (A & C & L4). subst ids. rewrite app_length in L4. cbn [length] in L4.
    assert (S1 : sid_ok id) by (apply SI; [exact Li|intros c I; apply A, in_or_app; now left]).
    assert (S2 : sid_ok to) by (apply SI; [lia|intros c I; apply A, in_or_app; right; now right]).
    split; [now split|]. split; [exact I|]. split; [exact L|]. split; [exact N1|]. intros I. now apply N2, C.
  - apply headed_in in H. destruct H as (A & C & L4). apply selection_in in S. destruct S as (S1 & S2 & S3 & S4).
    split; [split; [now apply SI|]|]. { rewrite Forall_forall in *. intros s I. apply SI; [now apply S3|]. intros c J. now apply C, (S2 s). }
    split; [exact S4|]. split; [exact L|]. split; [exact N1|]. intros I. now apply N2, C, S1.
  - apply headed_in in H. destruct H as (A & C & L4). destruct T as [T _]. split; [exact T|]. split; [exact I|]. split; [exact L|]. split; [exact N1|]. intros I. now apply N2, C.
Qed.

(** The packet with another payload is written and read as it is. *)
Lemma relay_raw sp l q name d d' : packet_read l q -> raw q name d -> ~ In x00 d' -> (starts d -> starts d') ->
  decode_packet_raw sp (marshal_packet (set_message (ARaw name d') q)) = Ok (set_message (ARaw name d') q).
Proof.
  intros P R N S. destruct (read_parts l q name d P R) as (A & F & L & N1 & _).
  apply (packet_roundtrip sp _ name d'); [now destruct q|exact L|exact N1|exact N|now destruct q|].
  destruct q; cbn [set_message payload_ok]; trivial. cbn [feature_starts] in F. apply S in F. destruct d'; [exact I|exact F].
Qed.

Lemma relay_packet sp sp' l p : decode_packet pf sp l = Ok p ->
  ((exists p', decode_packet pf sp' (marshal_packet p) = Ok p' /\ same_packet p p') <-> survives (message p)).
Proof.
  intros H. unfold decode_packet in H. apply bind_ok in H. destruct H as (q & R & H). apply packet_iff in R.
  destruct (raw_message l q R) as (name & d & M). unfold decode_message in H. unfold raw in M. rewrite M in H.
  apply bind_ok in H. destruct H as (m & U & [= <-]). pose proof (decoded_same pf name d m U) as SM.
  assert (MR : message_read pf name d m) by (apply message_iff; eauto).
  destruct (relay_message name d m MR) as (C & NU & ST & SU & _).
  destruct (read_parts l q name d R M) as (_ & _ & _ & _ & N).
  assert (MS : message (set_message m q) = m) by now destruct q.
  assert (E : marshal_packet (set_message m q) = marshal_packet (set_message (ARaw name (marshal m)) q)).
  { rewrite <- C. unfold marshal_packet. destruct q; reflexivity. }
  pose proof (relay_raw sp' l q name d (marshal m) R M (NU N) ST) as RR. rewrite MS, <- SU, E.
  rewrite decode_packet_iff. unfold packet_message_read. split.
  - intros (q' & name' & d' & P & M' & MR' & _). apply (packet_iff sp') in P. rewrite RR in P. injection P as <-.
    rewrite MS in MR'. assert (X : raw (set_message (ARaw name (marshal m)) q) name (marshal m)) by (now destruct q).
    unfold raw in *. rewrite X in M'. injection M' as <- <-. exact MR'.
  - intros K. exists (set_message (ARaw name (marshal m)) q), name, (marshal m). rewrite MS. split; [now apply (packet_iff sp')|].
    split; [now destruct q|]. split; [exact K|now destruct q].
Qed.

(** ** Lines *)

Lemma line_parts q p name d : ~ In x0a q -> packet_read (q ++ [x0a]) p -> raw p name d -> ~ In x0a name /\ ~ In x0a d /\
  match p with PFeature _ sel _ => Forall (fun s => ~ In x0a (fst s)) sel | _ => True end.
Proof.
  intros N (k & n & data & (L & F) & _ & D) R.
  assert (X : ~ In x0a n /\ exists a, data = a ++ [x0a] /\ ~ In x0a a).
  { destruct F as [E|(d' & -> & E)].
    - destruct data as [|b r _] using rev_ind.
      + change (k :: n ++ [" "%byte]) with ((k :: n) ++ [" "%byte]) in E. apply app_inj_tail in E. destruct E as [_ E]. discriminate.
      + assert (Q : k :: n ++ " "%byte :: r ++ [b] = (k :: n ++ " "%byte :: r) ++ [b]) by (cbn [app]; now rewrite <- app_assoc).
        rewrite Q in E. clear Q. apply app_inj_tail in E. destruct E as [-> <-]. split; [intros I; apply N; right; apply in_or_app; now left|].
        exists r. split; [reflexivity|]. intros I. apply N. right. apply in_or_app. right. now right.
    - destruct (nl_last q (k :: n) d' N E) as [-> <-]. split; [intros I; apply N; now right|]. exists []. split; [reflexivity|intros []]. }
  destruct X as (X & a & -> & NA). unfold raw in R.
  assert (Y : forall m id x, headed m (a ++ [x0a]) id x -> ~ In x0a x) by (intros m id x; now apply headed_line).
  inversion D; subst; cbn [message] in R; injection R as -> ->.
  1-3: match goal with E : _ ++ [x0a] = _ ++ [x0a] |- _ => apply app_inj_tail in E; destruct E as [-> _] end; now repeat split.
  all: match goal with H : headed _ _ _ _ |- _ => apply Y in H; rename H into NH end.
  4: match goal with S : selection _ _ _ |- _ => apply selection_in in S; destruct S as (S1 & S2 & _ & _) end;
     split; [exact X|]; split; [intros J; now apply NH, S1|]; apply Forall_forall; intros s I J; now apply NH, (S2 s).
  all: now repeat split.
Qed.

Lemma line_form p : a_line (marshal_packet p) <->
  ~ In x0a (cmd (message p)) /\ ~ In x0a (header p) /\ ~ In x0a (marshal (message p)).
Proof.
  unfold a_line. rewrite marshal_form, header_sp. split.
  - intros (q & E & N).
    assert (Q : q = kind_of p :: cmd (message p) ++ header' p ++ tail_of p).
    { assert (Q : kind_of p :: cmd (message p) ++ header' p ++ tail_of p ++ [x0a] = (kind_of p :: cmd (message p) ++ header' p ++ tail_of p) ++ [x0a]) by (cbn [app]; now rewrite <- !app_assoc).
      rewrite Q in E. apply app_inj_tail in E. now destruct E as [<- _]. }
    subst q. clear E. repeat split; intros I; apply N; right.
    + apply in_or_app. now left.
    + apply in_app_or in I. destruct I as [I|[I|[]]]; [|discriminate]. apply in_or_app. right. apply in_or_app. now left.
    + apply in_or_app. right. apply in_or_app. right. unfold tail_of. destruct (marshal (message p)); [exact I|now right].
  - intros (N1 & N2 & N3). exists (kind_of p :: cmd (message p) ++ header' p ++ tail_of p). split.
    { cbn [app]. now rewrite <- !app_assoc. }
    intros [I|I]; [destruct p; discriminate|]. apply in_app_or in I. destruct I as [I|I]; [exact (N1 I)|].
    apply in_app_or in I. destruct I as [I|I]; [apply N2, in_or_app; now left|]. unfold tail_of in I. destruct (marshal (message p)); [exact I|].
    destruct I as [I|I]; [discriminate|exact (N3 I)].
Qed.

Lemma header_line p : match p with PFeature _ sel _ => Forall (fun s => ~ In x0a (fst s)) sel | _ => True end ->
  (~ In x0a (header p) <-> Forall (fun id => ~ In x0a id) (sids p)).
Proof.
  intros S. assert (SP : ~ In x0a (B " ")) by (cbn; intuition discriminate). split.
  - intros N. assert (K : forall id, In id (sids p) -> forall c, In c id -> In c (header p)).
    { intros id I c J. destruct p; cbn [sids In header] in *; repeat rewrite in_app_iff; intuition (subst; auto). }
    apply Forall_forall. intros id I J. apply N. now apply (K id I).
  - intros F I. destruct p; cbn [header sids] in *.
    all: repeat (apply in_app_or in I; destruct I as [I|I]); try (exact (SP I)).
    all: try (rewrite Forall_forall in F; eapply F; [|exact I]; cbn; tauto).
    + apply in_flat_map in I. destruct I as (s & X & I). rewrite Forall_forall in S. specialize (S s X). unfold selector in I.
      destruct I as [I|I]; [destruct (snd s); discriminate|]. apply in_app_or in I. tauto.
    + revert I. apply foreign_hash. now right.
Qed.

Lemma relay_line sp q p : ~ In x0a q -> decode_packet pf sp (q ++ [x0a]) = Ok p -> (a_line (marshal_packet p) <-> unbroken_line p).
Proof.
  intros NQ H. unfold decode_packet in H. apply bind_ok in H. destruct H as (r & R & H). apply packet_iff in R.
  destruct (raw_message _ r R) as (name & d & M). unfold decode_message in H. assert (MM := M). unfold raw in M. rewrite M in H.
  apply bind_ok in H. destruct H as (m & U & [= <-]). pose proof (decoded_same pf name d m U) as SM.
  assert (MR : message_read pf name d m) by (apply message_iff; eauto).
  destruct (relay_message name d m MR) as (C & _ & _ & _ & LI).
  destruct (line_parts q r name d NQ R MM) as (N1 & N2 & N3). specialize (LI N2).
  assert (MS : message (set_message m r) = m) by now destruct r.
  rewrite line_form, header_line; [|now destruct r]. unfold unbroken_line. rewrite MS, C, LI. tauto.
Qed.

Lemma relay_raw_line sp q p : ~ In x0a q -> decode_packet_raw sp (q ++ [x0a]) = Ok p -> (a_line (marshal_packet p) <-> Forall (fun id => ~ In x0a id) (sids p)).
Proof.
  intros NQ R. apply packet_iff in R. destruct (raw_message _ p R) as (name & d & M).
  destruct (line_parts q p name d NQ R M) as (N1 & N2 & N3). unfold raw in M.
  rewrite line_form, header_line by assumption. rewrite M. cbn [cmd marshal]. tauto.
Qed.

End Relay.
