(** Decoding the arguments of a message again with another decoder, into what the first attempt
    left behind. *)
From Verif Require Import Base BaseFacts Num NumFacts Utf8 NmdcText NmdcTextFacts SpecText SpecHash SpecNmdc NmdcMsgFacts NmdcChat NmdcHub NmdcFiles NmdcUser NmdcMessage
  Base32 Base32Facts Tiger TigerFacts SpecFrame NmdcDecodeFacts NmdcReuseFacts.
From Coq Require Import Lia.

(** ** Decoders as lists of assignments *)

Section Writes.
Context {S W : Type} (ap : W -> S -> S) (tag : W -> nat).
Hypothesis same_tag : forall w v s, tag w = tag v -> ap w (ap v s) = ap w s.
Hypothesis other_tag : forall w v s, tag w <> tag v -> ap w (ap v s) = ap v (ap w s).

(** Assignments in order. *)
Fixpoint run (ws : list W) (s : S) : S := match ws with [] => s | w :: r => run r (ap w s) end.
Lemma run_app a b s : run (a ++ b) s = run b (run a s).
Proof. revert s. induction a as [|w a IH]; intros s; cbn; [reflexivity|apply IH]. Qed.
Lemma run_hides w ws : forall s, In (tag w) (map tag ws) -> run ws (ap w s) = run ws s.
Proof.
  induction ws as [|v ws IH]; intros s I; cbn in *; [contradiction|]. destruct (Nat.eq_dec (tag v) (tag w)) as [E|E].
  - now rewrite same_tag.
  - destruct I as [I|I]; [contradiction|]. rewrite other_tag by assumption. now apply IH.
Qed.
Lemma run_over ws ws' : forall s, incl (map tag ws) (map tag ws') -> run ws' (run ws s) = run ws' s.
Proof.
  induction ws as [|w ws IH]; intros s I; cbn [run]; [reflexivity|]. rewrite IH by (intros x H; apply I; cbn; auto). apply run_hides, I. cbn. auto.
Qed.

(** A decoder which makes the assignments [ws] with the result [r], whatever was there. *)
Definition makes {A} (F : S -> S * res A) (ws : list W) (r : res A) : Prop := forall s, F s = (run ws s, r).
(** [G] assigns every field [F] does, unless it fails. *)
Definition covers {A} (F G : S -> S * res A) : Prop :=
  exists ws1 r1 ws2 r2, makes F ws1 r1 /\ makes G ws2 r2 /\ (forall b, r2 = Ok b -> incl (map tag ws1) (map tag ws2)).

Lemma covers_stop {A} (r r' : res A) : covers (fun s => (s, r)) (fun s => (s, r')).
Proof. exists [], r, [], r'. repeat split. intros b _ x []. Qed.
Lemma covers_set {A} (F G : S -> S * res A) w w' : tag w = tag w' -> covers F G -> covers (fun s => F (ap w s)) (fun s => G (ap w' s)).
Proof.
  intros T (ws1 & r1 & ws2 & r2 & M1 & M2 & I). exists (w :: ws1), r1, (w' :: ws2), r2. split; [intros s; apply M1|]. split; [intros s; apply M2|].
  intros b E x [<-|H]; [left; now symmetry|right; now apply (I b)].
Qed.
Lemma covers_bind {A B} (r r' : res A) (F G : A -> S -> S * res B) : (forall a b, covers (F a) (G b)) ->
  covers (fun s => do x <- r keeping s; F x s) (fun s => do x <- r' keeping s; G x s).
Proof.
  intros C. destruct r' as [b|e|].
  - destruct r as [a|e|]; [apply (C a b)| |].
    + destruct (C b b) as (ws1 & r1 & ws2 & r2 & M1 & M2 & I). exists [], (Err e), ws2, r2. split; [intros s; reflexivity|]. split; [exact M2|]. intros ? ? x [].
    + destruct (C b b) as (ws1 & r1 & ws2 & r2 & M1 & M2 & I). exists [], Panic, ws2, r2. split; [intros s; reflexivity|]. split; [exact M2|]. intros ? ? x [].
  - destruct r as [a|e'|]; [|exists [], (Err e'), [], (Err e); repeat split; discriminate|exists [], Panic, [], (Err e); repeat split; discriminate].
    assert (D : exists ws x, makes (F a) ws x).
    { destruct (C a a) as (ws1 & r1 & ws2 & r2 & M1 & M2 & I). eauto. }
    destruct D as (ws & x & M). exists ws, x, [], (Err e). split; [exact M|]. split; [intros s; reflexivity|]. discriminate.
  - destruct r as [a|e'|]; [|exists [], (Err e'), [], Panic; repeat split; discriminate|exists [], Panic, [], Panic; repeat split; discriminate].
    assert (D : exists ws x, makes (F a) ws x).
    { destruct (C a a) as (ws1 & r1 & ws2 & r2 & M1 & M2 & I). eauto. }
    destruct D as (ws & x & M). exists ws, x, [], Panic. split; [exact M|]. split; [intros s; reflexivity|]. discriminate.
Qed.
(** A first part made the same way by both. *)
Lemma covers_seq {A B} (F0 : S -> S * res A) ws0 (F G : A -> S -> S * res B) r0 : makes F0 ws0 r0 -> (forall a, r0 = Ok a -> covers (F a) (G a)) ->
  covers (fun s => let '(m, e) := F0 s in do x <- e keeping m; F x m) (fun s => let '(m, e) := F0 s in do x <- e keeping m; G x m).
Proof.
  intros M C. destruct r0 as [a|e|].
  - destruct (C a eq_refl) as (ws1 & r1 & ws2 & r2 & M1 & M2 & I). exists (ws0 ++ ws1), r1, (ws0 ++ ws2), r2.
    split; [intros s; rewrite (M s), run_app; apply M1|]. split; [intros s; rewrite (M s), run_app; apply M2|].
    intros b E. rewrite !map_app. apply incl_app; [apply incl_appl, incl_refl|apply incl_appr, (I b E)].
  - exists ws0, (Err e), ws0, (Err e). split; [intros s; now rewrite (M s)|]. split; [intros s; now rewrite (M s)|]. discriminate.
  - exists ws0, Panic, ws0, Panic. split; [intros s; now rewrite (M s)|]. split; [intros s; now rewrite (M s)|]. discriminate.
Qed.
Lemma covers_ext {A} (F F' G G' : S -> S * res A) : (forall s, F s = F' s) -> (forall s, G s = G' s) -> covers F' G' -> covers F G.
Proof.
  intros E1 E2 (ws1 & r1 & ws2 & r2 & M1 & M2 & I). exists ws1, r1, ws2, r2. split; [intros s; now rewrite E1|]. split; [intros s; now rewrite E2|]. exact I.
Qed.
(** Decoding again is as good as decoding into the old value. *)
Lemma covers_again (F G : S -> S * res unit) s : covers F G -> alike (G (fst (F s))) (G s).
Proof.
  intros (ws1 & r1 & ws2 & r2 & M1 & M2 & I). rewrite (M1 s), (M2 s), (M2 _). cbn [fst]. split; [reflexivity|]. cbn. intros E. apply run_over. now apply (I tt).
Qed.
End Writes.

(** ** HubINFO *)

(** The assignments to the fields of a HubINFO. *)
Inductive hwrite := HName (x : bytes) | HHost (x : bytes) | HDesc (x : bytes) | HI1 (x : Z) | HI2 (x : Z) | HI3 (x : Z) | HI4 (x : Z)
  | HSoft (x : bytes) | HVers (x : bytes) | HOwner (x : bytes) | HState (x : bytes) | HEnc (x : bytes).
(** Making the assignment. *)
Definition hap (w : hwrite) (m : hubinfo) : hubinfo :=
  match w with
  | HName x => set_hi_name m x | HHost x => set_hi_host m x | HDesc x => set_hi_desc m x | HI1 x => set_hi_i1 m x | HI2 x => set_hi_i2 m x
  | HI3 x => set_hi_i3 m x | HI4 x => set_hi_i4 m x | HSoft x => set_hi_soft m x | HVers x => set_hi_vers m x | HOwner x => set_hi_owner m x
  | HState x => set_hi_state m x | HEnc x => set_hi_encoding m x
  end.
(** The field assigned. *)
Definition htag (w : hwrite) : nat :=
  match w with HName _ => 0 | HHost _ => 1 | HDesc _ => 2 | HI1 _ => 3 | HI2 _ => 4 | HI3 _ => 5 | HI4 _ => 6 | HSoft _ => 7 | HVers _ => 8 | HOwner _ => 9 | HState _ => 10 | HEnc _ => 11 end.
Lemma h_same w v s : htag w = htag v -> hap w (hap v s) = hap w s.
Proof. destruct w, v; cbn [htag]; intros H; try discriminate H; reflexivity. Qed.
Lemma h_other w v s : htag w <> htag v -> hap w (hap v s) = hap v (hap w s).
Proof. destruct w, v; cbn [htag]; intros H; try reflexivity; contradiction. Qed.

Lemma hubinfo_covers dec d n l : forall i, covers hap htag (fun m => hubinfo_fields dec n i m l) (fun m => hubinfo_fields d n i m l).
Proof.
  induction l as [|f l IH]; intros i; cbn [hubinfo_fields]; [apply covers_stop|].
  assert (T : forall (C : bytes -> hwrite), (forall x y, htag (C x) = htag (C y)) -> forall i,
    covers hap htag (fun m => let '(m, e) := do s <- string_unmarshal dec f keeping m; (hap (C s) m, Ok tt) in do u <- e keeping m; hubinfo_fields dec n i m l)
                    (fun m => let '(m, e) := do s <- string_unmarshal d f keeping m; (hap (C s) m, Ok tt) in do u <- e keeping m; hubinfo_fields d n i m l)).
  { intros C HC i'. apply (covers_ext hap htag _ (fun m => do s <- string_unmarshal dec f keeping m; hubinfo_fields dec n i' (hap (C s) m) l) _ (fun m => do s <- string_unmarshal d f keeping m; hubinfo_fields d n i' (hap (C s) m) l)).
    - intros m. destruct (string_unmarshal dec f); reflexivity.
    - intros m. destruct (string_unmarshal d f); reflexivity.
    - apply (covers_bind hap htag _ _ (fun s m => hubinfo_fields dec n i' (hap (C s) m) l) (fun s m => hubinfo_fields d n i' (hap (C s) m) l)). intros a b.
      apply (covers_set hap htag (fun m => hubinfo_fields dec n i' m l) (fun m => hubinfo_fields d n i' m l)); [apply HC|apply IH]. }
  assert (Z : forall (C : Z -> hwrite) e, forall i,
    covers hap htag (fun m => let '(m, e) := match atoi_trim f with Ok z => (hap (C z) m, Ok tt) | Err _ => (m, Err e) | Panic => (m, Panic) end in do u <- e keeping m; hubinfo_fields dec n i m l)
                    (fun m => let '(m, e) := match atoi_trim f with Ok z => (hap (C z) m, Ok tt) | Err _ => (m, Err e) | Panic => (m, Panic) end in do u <- e keeping m; hubinfo_fields d n i m l)).
  { intros C e i'. destruct (atoi_trim f); [|apply covers_stop|apply covers_stop]. apply (covers_set hap htag (fun m => hubinfo_fields dec n i' m l) (fun m => hubinfo_fields d n i' m l)); [reflexivity|apply IH]. }
  assert (X : forall w i, covers hap htag (fun m => hubinfo_fields dec n i (hap w m) l) (fun m => hubinfo_fields d n i (hap w m) l)).
  { intros w i'. apply (covers_set hap htag (fun m => hubinfo_fields dec n i' m l) (fun m => hubinfo_fields d n i' m l)); [reflexivity|apply IH]. }
  destruct i as [|[|[|[|[|[|[|[|[|[|[|i]]]]]]]]]]]; cbn [hubinfo_field].
  - apply (T HName). reflexivity.
  - apply (X (HHost f)).
  - apply (T HDesc). reflexivity.
  - apply (Z HI1).
  - apply (Z HI2).
  - apply (Z HI3).
  - apply (Z HI4).
  - destruct (last_cut " " f) as [[a b]|]; [|apply (X (HSoft f))].
    apply (covers_set hap htag (fun m => hubinfo_fields dec n 8 (hap (HVers b) m) l) (fun m => hubinfo_fields d n 8 (hap (HVers b) m) l) (HSoft a) (HSoft a)); [reflexivity|apply X].
  - apply (T HOwner). reflexivity.
  - apply (T HState). reflexivity.
  - destruct (n <? 12)%nat; [apply (X (HEnc f))|apply IH].
  - apply IH.
Qed.

(** ** MyINFO *)

(** The assignments to the fields of a MyINFO. *)
Inductive mwrite := MwName (x : bytes) | MwDesc (x : bytes) | MwClient (x : bytes) | MwVersion (x : bytes) | MwMode (x : byte) | MwHn (x : Z) | MwHr (x : Z) | MwHo (x : Z)
  | MwSlots (x : Z) | MwExtra (x : list (bytes * bytes)) | MwConn (x : bytes) | MwFlag (x : byte) | MwEmail (x : bytes) | MwShare (x : N).
(** Making the assignment. *)
Definition map_ (w : mwrite) (m : myinfo) : myinfo :=
  match w with
  | MwName x => set_mi_name m x | MwDesc x => set_mi_desc m x | MwClient x => set_mi_client m x | MwVersion x => set_mi_version m x | MwMode x => set_mi_mode m x
  | MwHn x => set_mi_hubs_normal m x | MwHr x => set_mi_hubs_reg m x | MwHo x => set_mi_hubs_op m x | MwSlots x => set_mi_slots m x | MwExtra x => set_mi_extra m x
  | MwConn x => set_mi_conn m x | MwFlag x => set_mi_flag m x | MwEmail x => set_mi_email m x | MwShare x => set_mi_share m x
  end.
(** The field assigned. *)
Definition mtag (w : mwrite) : nat :=
  match w with MwName _ => 0 | MwDesc _ => 1 | MwClient _ => 2 | MwVersion _ => 3 | MwMode _ => 4 | MwHn _ => 5 | MwHr _ => 6 | MwHo _ => 7 | MwSlots _ => 8
  | MwExtra _ => 9 | MwConn _ => 10 | MwFlag _ => 11 | MwEmail _ => 12 | MwShare _ => 13 end.
Lemma m_same w v s : mtag w = mtag v -> map_ w (map_ v s) = map_ w s.
Proof. destruct w, v; cbn [mtag]; intros H; try discriminate H; reflexivity. Qed.
Lemma m_other w v s : mtag w <> mtag v -> map_ w (map_ v s) = map_ v (map_ w s).
Proof. destruct w, v; cbn [mtag]; intros H; try reflexivity; contradiction. Qed.

(** The extra fields after assignments. *)
Fixpoint extra_after (ws : list mwrite) (x : list (bytes * bytes)) : list (bytes * bytes) :=
  match ws with [] => x | MwExtra y :: r => extra_after r y | _ :: r => extra_after r x end.
Lemma extra_run ws : forall m, mi_extra (run map_ ws m) = extra_after ws (mi_extra m).
Proof. induction ws as [|w ws IH]; intros m; [reflexivity|]. cbn [run]. rewrite IH. destruct w; reflexivity. Qed.

Lemma tag_value_makes x k v : exists ws r, forall m, mi_extra m = x -> tag_value m k v = (run map_ ws m, r).
Proof.
  unfold tag_value. assert (X : forall key, exists ws r, forall m, mi_extra m = x -> (set_mi_extra m (map_set key v (mi_extra m)), Ok tt) = (run map_ ws m, r)).
  { intros key. exists [MwExtra (map_set key v x)], (Ok tt). intros m <-. reflexivity. }
  assert (N : forall r : res unit, exists ws r', forall m, mi_extra m = x -> (m, r) = (run map_ ws m, r')) by (intros r; exists [], r; reflexivity).
  assert (O : forall w (r : res unit), exists ws r', forall m, mi_extra m = x -> (map_ w m, r) = (run map_ ws m, r')) by (intros w r; exists [w], r; reflexivity).
  destruct k as [|c [|? ?]]; try apply X.
  destruct (beq (upper_key c) "V"); [apply (O (MwVersion v))|]. destruct (beq (upper_key c) "M"); [apply (O (MwMode _))|].
  destruct (beq (upper_key c) "H").
  - destruct v as [|v0 v]; [apply (O (MwHn 1%Z))|]. destruct (contains_byte "/" (v0 :: v)).
    + destruct (split_byte "/" (v0 :: v)) as [|a [|b [|g [|? ?]]]]; try apply N.
      destruct (atoi_trim a) as [p| |]; [|apply (O (MwHn (atoi_value a)))|apply (O (MwHn (atoi_value a)))]. destruct (atoi_trim b) as [q|e|]; [|exists [MwHn p; MwHr (atoi_value b)], (Err e); reflexivity|exists [MwHn p; MwHr (atoi_value b)], Panic; reflexivity].
      destruct (atoi_trim g) as [t|e|]; [exists [MwHn p; MwHr q; MwHo t], (Ok tt)|exists [MwHn p; MwHr q; MwHo (atoi_value g)], (Err e)|exists [MwHn p; MwHr q; MwHo (atoi_value g)], Panic]; reflexivity.
    + destruct (atoi_trim (v0 :: v)) as [p| |]; [apply (O (MwHn p))|apply (O (MwHn (atoi_value (v0 :: v))))|apply (O (MwHn (atoi_value (v0 :: v))))].
  - destruct (beq (upper_key c) "S"); [|apply X]. destruct (atoi_trim v) as [p| |]; [apply (O (MwSlots p))|apply (O (MwSlots (atoi_value v)))|apply N].
Qed.
Lemma tag_fields_makes l : forall x cl first, exists ws c r, forall m, mi_extra m = x -> tag_fields m cl first l = (run map_ ws m, c, r).
Proof.
  induction l as [|f l IH]; intros x cl first; cbn [tag_fields]; [exists [], cl, (Ok tt); reflexivity|]. destruct f as [|c f]; [apply IH|].
  destruct (cut ":" (c :: f)) as [[[|k ks] v]|].
  - exists [], cl, (Err (EText "unknown field name in tag")). reflexivity.
  - destruct (tag_value_makes x (k :: ks) v) as (ws & r & H). destruct r as [u|e|].
    + destruct (IH (extra_after ws x) cl false) as (ws' & c' & r' & H'). exists (ws ++ ws'), c', r'. intros m E. rewrite (H m E), run_app. apply H'. rewrite extra_run. now rewrite E.
    + exists ws, cl, (Err e). intros m E. now rewrite (H m E).
    + exists ws, cl, Panic. intros m E. now rewrite (H m E).
  - destruct first; [apply IH|]. exists [], cl, (Err (EText "unknown field name in tag")). reflexivity.
Qed.
Lemma tag_makes tag : exists ws r, makes map_ (fun m => unmarshal_tag m tag) ws r.
Proof.
  unfold unmarshal_tag.
  destruct (match cut_seq (B " V:") tag with Some (c, t0) => (c, B "V:" ++ t0) | None => match cut_seq (B " v:") tag with Some (c, t0) => (c, B "v:" ++ t0) | None => ([], tag) end end) as [cl t].
  destruct (tag_fields_makes (split_byte "," t) [] cl true) as (ws & c & r & H). destruct r as [u|e|].
  - exists (MwExtra [] :: ws ++ [MwClient c]), (Ok tt). intros m. rewrite H by reflexivity. cbn [run]. now rewrite run_app.
  - exists (MwExtra [] :: ws), (Err e). intros m. now rewrite H by reflexivity.
  - exists (MwExtra [] :: ws), Panic. intros m. now rewrite H by reflexivity.
Qed.
(** Coverage for MyINFO. *)
Notation mcovers := (covers map_ mtag).
Lemma end_covers dec d f3 f4 : mcovers (fun m => myinfo_end dec m f3 f4) (fun m => myinfo_end d m f3 f4).
Proof.
  unfold myinfo_end. apply (covers_bind map_ mtag _ _ (fun e m => match f4 with [] => (map_ (MwEmail e) m, Ok tt) | _ => (set_mi_share (map_ (MwEmail e) m) (match parse_uint_trim f4 with Ok n => n | _ => 0%N end), Ok tt) end)
    (fun e m => match f4 with [] => (map_ (MwEmail e) m, Ok tt) | _ => (set_mi_share (map_ (MwEmail e) m) (match parse_uint_trim f4 with Ok n => n | _ => 0%N end), Ok tt) end)).
  intros a b. apply (covers_set map_ mtag (fun m => match f4 with [] => (m, Ok tt) | _ => (set_mi_share m (match parse_uint_trim f4 with Ok n => n | _ => 0%N end), Ok tt) end) (fun m => match f4 with [] => (m, Ok tt) | _ => (set_mi_share m (match parse_uint_trim f4 with Ok n => n | _ => 0%N end), Ok tt) end)); [reflexivity|].
  destruct f4; [apply covers_stop|]. apply (covers_set map_ mtag (fun m => (m, Ok tt)) (fun m => (m, Ok tt)) (MwShare _) (MwShare _)); [reflexivity|apply covers_stop].
Qed.
Lemma rest_covers dec d tg f1 f2 f3 f4 : mcovers (fun m => myinfo_rest dec m tg f1 f2 f3 f4) (fun m => myinfo_rest d m tg f1 f2 f3 f4).
Proof.
  unfold myinfo_rest. destruct f1 as [|md [|? ?]]; try apply covers_stop.
  assert (X : mcovers (fun m => match rev f2 with [] => myinfo_end dec m f3 f4 | fl :: _ => let m := set_mi_flag m fl in do s <- string_unmarshal dec (drop_last f2) keeping m; myinfo_end dec (set_mi_conn m s) f3 f4 end)
                     (fun m => match rev f2 with [] => myinfo_end d m f3 f4 | fl :: _ => let m := set_mi_flag m fl in do s <- string_unmarshal d (drop_last f2) keeping m; myinfo_end d (set_mi_conn m s) f3 f4 end)).
  { destruct (rev f2) as [|fl ?]; [apply end_covers|]. cbv zeta.
    apply (covers_set map_ mtag (fun m => do s <- string_unmarshal dec (drop_last f2) keeping m; myinfo_end dec (set_mi_conn m s) f3 f4) (fun m => do s <- string_unmarshal d (drop_last f2) keeping m; myinfo_end d (set_mi_conn m s) f3 f4) (MwFlag fl) (MwFlag fl)); [reflexivity|].
    apply (covers_bind map_ mtag _ _ (fun s m => myinfo_end dec (map_ (MwConn s) m) f3 f4) (fun s m => myinfo_end d (map_ (MwConn s) m) f3 f4)). intros a b.
    apply (covers_set map_ mtag (fun m => myinfo_end dec m f3 f4) (fun m => myinfo_end d m f3 f4)); [reflexivity|apply end_covers]. }
  destruct tg; [exact X|]. apply (covers_set map_ mtag _ _ (MwMode _) (MwMode _) eq_refl X).
Qed.
Lemma myinfo_covers dec d a : mcovers (fun m => myinfo_unmarshal dec m a) (fun m => myinfo_unmarshal d m a).
Proof.
  unfold myinfo_unmarshal. destruct (has_prefix (B "$ALL ") a); [|apply covers_stop]. destruct (cut " " (skipn 5 a)) as [[n rest]|]; [|apply covers_stop].
  apply (covers_bind map_ mtag (name_unmarshal dec n) (name_unmarshal d n)
    (fun name m => match split_byte "$" rest with [f0; f1; f2; f3; f4; _] => let '(m, r) := myinfo_desc dec (map_ (MwName name) m) f0 in do hastag <- r keeping m; myinfo_rest dec m hastag f1 f2 f3 f4 | _ => (map_ (MwName name) m, Err (EText "invalid info command")) end)
    (fun name m => match split_byte "$" rest with [f0; f1; f2; f3; f4; _] => let '(m, r) := myinfo_desc d (map_ (MwName name) m) f0 in do hastag <- r keeping m; myinfo_rest d m hastag f1 f2 f3 f4 | _ => (map_ (MwName name) m, Err (EText "invalid info command")) end)).
  intros na nb.
  apply (covers_set map_ mtag
    (fun m => match split_byte "$" rest with [f0; f1; f2; f3; f4; _] => let '(m, r) := myinfo_desc dec m f0 in do hastag <- r keeping m; myinfo_rest dec m hastag f1 f2 f3 f4 | _ => (m, Err (EText "invalid info command")) end)
    (fun m => match split_byte "$" rest with [f0; f1; f2; f3; f4; _] => let '(m, r) := myinfo_desc d m f0 in do hastag <- r keeping m; myinfo_rest d m hastag f1 f2 f3 f4 | _ => (m, Err (EText "invalid info command")) end)); [reflexivity|].
  destruct (split_byte "$" rest) as [|f0 [|f1 [|f2 [|f3 [|f4 [|f5 [|? ?]]]]]]]; try apply covers_stop.
  unfold myinfo_desc.
  destruct (last_cut "<" f0) as [[ds tg]|].
  - destruct tg as [|t0 tg].
    + apply (covers_set map_ mtag (fun m => (m, Err (EText "empty info tag"))) (fun m => (m, Err (EText "empty info tag"))) (MwMode x00) (MwMode x00) eq_refl). apply covers_stop.
    + generalize (if last_is ">" (t0 :: tg) then drop_last (t0 :: tg) else t0 :: tg). intros t. cbv zeta.
      destruct (tag_makes t) as (ws & r & M).
      apply (covers_ext map_ mtag _ (fun m => (fun m => let '(m, e) := unmarshal_tag m t in do u <- e keeping m; do s <- string_unmarshal dec ds keeping m; myinfo_rest dec (map_ (MwDesc s) m) true f1 f2 f3 f4) (map_ (MwMode x00) m))
                                   _ (fun m => (fun m => let '(m, e) := unmarshal_tag m t in do u <- e keeping m; do s <- string_unmarshal d ds keeping m; myinfo_rest d (map_ (MwDesc s) m) true f1 f2 f3 f4) (map_ (MwMode x00) m))).
      * intros s. cbn beta. cbn [map_]. destruct (unmarshal_tag (set_mi_mode s x00) t) as [m' [u|e|]]; [|reflexivity|reflexivity]. destruct (string_unmarshal dec ds); reflexivity.
      * intros s. cbn beta. cbn [map_]. destruct (unmarshal_tag (set_mi_mode s x00) t) as [m' [u|e|]]; [|reflexivity|reflexivity]. destruct (string_unmarshal d ds); reflexivity.
      * apply (covers_set map_ mtag (fun m => let '(m, e) := unmarshal_tag m t in do u <- e keeping m; do s <- string_unmarshal dec ds keeping m; myinfo_rest dec (map_ (MwDesc s) m) true f1 f2 f3 f4)
          (fun m => let '(m, e) := unmarshal_tag m t in do u <- e keeping m; do s <- string_unmarshal d ds keeping m; myinfo_rest d (map_ (MwDesc s) m) true f1 f2 f3 f4) (MwMode x00) (MwMode x00) eq_refl).
        apply (covers_seq map_ mtag (fun m => unmarshal_tag m t) ws (fun _ m => do s <- string_unmarshal dec ds keeping m; myinfo_rest dec (map_ (MwDesc s) m) true f1 f2 f3 f4) (fun _ m => do s <- string_unmarshal d ds keeping m; myinfo_rest d (map_ (MwDesc s) m) true f1 f2 f3 f4) r M).
        intros _ _. apply (covers_bind map_ mtag _ _ (fun s m => myinfo_rest dec (map_ (MwDesc s) m) true f1 f2 f3 f4) (fun s m => myinfo_rest d (map_ (MwDesc s) m) true f1 f2 f3 f4)). intros u v.
        apply (covers_set map_ mtag (fun m => myinfo_rest dec m true f1 f2 f3 f4) (fun m => myinfo_rest d m true f1 f2 f3 f4)); [reflexivity|apply rest_covers].
  - apply (covers_ext map_ mtag _ (fun m => (fun m => do s <- string_unmarshal dec f0 keeping m; myinfo_rest dec (map_ (MwDesc s) m) false f1 f2 f3 f4) (map_ (MwMode x00) m))
                                   _ (fun m => (fun m => do s <- string_unmarshal d f0 keeping m; myinfo_rest d (map_ (MwDesc s) m) false f1 f2 f3 f4) (map_ (MwMode x00) m))).
    + intros s. cbv zeta. destruct (string_unmarshal dec f0); reflexivity.
    + intros s. cbv zeta. destruct (string_unmarshal d f0); reflexivity.
    + apply (covers_set map_ mtag (fun m => do s <- string_unmarshal dec f0 keeping m; myinfo_rest dec (map_ (MwDesc s) m) false f1 f2 f3 f4)
        (fun m => do s <- string_unmarshal d f0 keeping m; myinfo_rest d (map_ (MwDesc s) m) false f1 f2 f3 f4) (MwMode x00) (MwMode x00) eq_refl).
      apply (covers_bind map_ mtag _ _ (fun s m => myinfo_rest dec (map_ (MwDesc s) m) false f1 f2 f3 f4) (fun s m => myinfo_rest d (map_ (MwDesc s) m) false f1 f2 f3 f4)). intros u v.
      apply (covers_set map_ mtag (fun m => myinfo_rest dec m false f1 f2 f3 f4) (fun m => myinfo_rest d m false f1 f2 f3 f4)); [reflexivity|apply rest_covers].
Qed.

(** ** Where the text of an encoding error comes from *)

Lemma sub_refl s : substring s s. Proof. exists [], []. now rewrite app_nil_r. Qed.
Lemma sub_trans a b c : substring a b -> substring b c -> substring a c.
Proof. intros (x & y & ->) (u & v & ->). exists (u ++ x), (y ++ v). now rewrite <- !app_assoc. Qed.
Lemma sub_cut c s a r : cut c s = Some (a, r) -> substring a s /\ substring r s.
Proof. intros H. apply cut_spec in H as [-> _]. split; [exists [], (c :: r); reflexivity|exists (a ++ [c]), []; now rewrite app_nil_r, <- app_assoc]. Qed.
Lemma sub_last_cut c s a r : last_cut c s = Some (a, r) -> substring a s /\ substring r s.
Proof. intros H. apply last_cut_spec in H as [-> _]. split; [exists [], (c :: r); reflexivity|exists (a ++ [c]), []; now rewrite app_nil_r, <- app_assoc]. Qed.
Lemma sub_cut_seq p s a r : cut_seq p s = Some (a, r) -> substring a s /\ substring r s.
Proof. intros H. apply cut_seq_some in H. subst. split; [exists [], (p ++ r); reflexivity|exists (a ++ p), []; now rewrite app_nil_r, <- app_assoc]. Qed.
Lemma sub_skipn n s : substring (skipn n s) s.
Proof. exists (firstn n s), []. now rewrite app_nil_r, firstn_skipn. Qed.
Lemma sub_firstn n s : substring (firstn n s) s.
Proof. exists [], (skipn n s). cbn. now rewrite firstn_skipn. Qed.
Lemma sub_join c l : forall x, In x l -> substring x (join [c] l).
Proof.
  induction l as [|y l IH]; intros x; [intros []|intros [<-|I]].
  - destruct l as [|z l]; [apply sub_refl|]. exists [], ([c] ++ join [c] (z :: l)). reflexivity.
  - destruct l as [|z l]; [contradiction|]. apply (sub_trans _ _ _ (IH x I)). exists (y ++ [c]), []. now rewrite app_nil_r, <- app_assoc.
Qed.
Lemma sub_split c s x : In x (split_byte c s) -> substring x s.
Proof. intros H. rewrite <- (join_split_byte c s) at 1. now apply sub_join. Qed.
Lemma sub_splitn n c s x : In x (splitn_byte (S n) c s) -> substring x s.
Proof. intros H. rewrite <- (splitn_join n c s). now apply sub_join. Qed.
Lemma sub_drop_while f s : substring (drop_while f s) s.
Proof.
  induction s as [|c s IH]; [apply sub_refl|]. cbn. destruct (f c); [|apply sub_refl]. apply (sub_trans _ _ _ IH). exists [c], []. now rewrite app_nil_r.
Qed.
Lemma sub_rev a b : substring a b -> substring (rev a) (rev b).
Proof. intros (x & y & ->). exists (rev y), (rev x). now rewrite !rev_app_distr, <- app_assoc. Qed.
Lemma sub_trim_right f s : substring (trim_right_by f s) s.
Proof. unfold trim_right_by. rewrite <- (rev_involutive s) at 2. apply sub_rev, sub_drop_while. Qed.
Lemma sub_trim_suffix p s : substring (trim_suffix p s) s.
Proof. unfold trim_suffix. destruct (has_suffix p s); [apply sub_firstn|apply sub_refl]. Qed.
Lemma sub_split_seq p s : forall x, p <> [] -> In x (split_seq p s) -> substring x s.
Proof.
  intros x N. unfold split_seq. generalize (length s) as f. intros f. revert s x. induction f as [|f IH]; intros s x; cbn [split_seq_fuel].
  - intros [<-|[]]. apply sub_refl.
  - destruct (cut_seq p s) as [[a r]|] eqn:E; [|intros [<-|[]]; apply sub_refl]. apply sub_cut_seq in E as [E1 E2]. intros [<-|I]; [exact E1|]. apply (sub_trans _ _ _ (IH _ _ I) E2).
Qed.

(** [t] is the text, after decoding, of a part of [a] in an unknown encoding. *)
Definition origin (dec : codec) (a t : bytes) : Prop := exists part, substring part a /\ text_unmarshal dec part = Err (EUnknownEnc t).
Lemma origin_sub dec a b t : origin dec a t -> substring a b -> origin dec b t.
Proof. intros (p & P & E) H. exists p. split; [now apply (sub_trans _ _ _ P)|exact E]. Qed.
Lemma str_origin dec x t : string_unmarshal dec x = Err (EUnknownEnc t) -> origin dec x t.
Proof. unfold string_unmarshal. destruct (contains_byte x00 x); [discriminate|]. intros E. exists x. split; [apply sub_refl|exact E]. Qed.
Lemma name_origin dec x t : name_unmarshal dec x = Err (EUnknownEnc t) -> origin dec x t.
Proof. unfold name_unmarshal. destruct (max_name <? length x)%nat; [discriminate|]. destruct (existsb _ x); [discriminate|]. intros E. exists x. split; [apply sub_refl|exact E]. Qed.

Ltac subs := repeat match goal with
  | H : cut _ ?s = Some (_, _) |- _ => apply sub_cut in H as [? ?]
  | H : last_cut _ ?s = Some (_, _) |- _ => apply sub_last_cut in H as [? ?]
  | H : cut_seq _ ?s = Some (_, _) |- _ => apply sub_cut_seq in H as [? ?]
  end.
Ltac chase := match goal with
  | |- substring ?x ?x => apply sub_refl
  | H : substring ?x ?y |- substring ?x _ => apply (sub_trans _ _ _ H); clear H; chase
  | |- substring (skipn _ ?s) _ => apply (sub_trans _ _ _ (sub_skipn _ s)); chase
  | |- substring (firstn _ ?s) _ => apply (sub_trans _ _ _ (sub_firstn _ s)); chase
  | |- substring (drop_last ?s) _ => apply (sub_trans _ _ _ (sub_firstn _ s)); chase
  end.
Ltac follow H := repeat (cbn [snd] in H; match type of H with
  | snd (match string_unmarshal ?dec ?x with Ok _ => _ | Err _ => _ | Panic => _ end) = _ =>
      let E := fresh "E" in destruct (string_unmarshal dec x) eqn:E; [|cbn [snd] in H; injection H as ->; apply str_origin in E; subs; apply (origin_sub _ _ _ _ E); chase|discriminate H]
  | snd (match name_unmarshal ?dec ?x with Ok _ => _ | Err _ => _ | Panic => _ end) = _ =>
      let E := fresh "E" in destruct (name_unmarshal dec x) eqn:E; [|cbn [snd] in H; injection H as ->; apply name_origin in E; subs; apply (origin_sub _ _ _ _ E); chase|discriminate H]
  | snd (match cut ?c ?s with Some _ => _ | None => _ end) = _ => let E := fresh "E" in destruct (cut c s) as [[? ?]|] eqn:E; [|discriminate H]
  | snd (match cut_seq ?c ?s with Some _ => _ | None => _ end) = _ => let E := fresh "E" in destruct (cut_seq c s) as [[? ?]|] eqn:E; [|discriminate H]
  | snd (if ?b then _ else _) = _ => destruct b
  | Ok _ = _ => discriminate H
  | Panic = _ => discriminate H
  | Err (EText _) = _ => discriminate H
  | Err (EProtocol _) = _ => discriminate H
  end).


Lemma sub_trim_white s : substring (trim_white s) s.
Proof.
  assert (L : forall f s, substring (trim_left_space f s) s).
  { induction f as [|f IH]; intros x; cbn [trim_left_space]; [apply sub_refl|]. destruct x as [|c x]; [apply sub_refl|]. destruct (decode_rune (c :: x)) as [r n].
    destruct (is_space_rune r); [|apply sub_refl]. apply (sub_trans _ _ _ (IH _)), sub_skipn. }
  assert (R : forall f s, substring (trim_right_space f s) s).
  { induction f as [|f IH]; intros x; cbn [trim_right_space]; [apply sub_refl|]. destruct x as [|c x]; [apply sub_refl|]. destruct (decode_last_rune (c :: x)) as [r n].
    destruct (is_space_rune r); [|apply sub_refl]. apply (sub_trans _ _ _ (IH _)), sub_firstn. }
  unfold trim_white. apply (sub_trans _ _ _ (R _ _)), L.
Qed.

(** Other errors. *)
Definition plain {A} (r : res A) : Prop := forall t, r <> Err (EUnknownEnc t).
Lemma atoi_plain s : plain (atoi_trim s).
Proof.
  intros t. unfold atoi_trim. destruct s as [|c s]; [discriminate|]. cbv zeta. destruct (trim_space (c :: s)) as [|d r]; [discriminate|].
  assert (L : forall x n, plain (atoi_loop n x)).
  { induction x as [|y x IH]; intros n u; cbn; [discriminate|]. destruct (9 <? digit_val y)%N; [discriminate|]. apply IH. }
  destruct (length (d :: r) <? 10)%nat.
  - destruct (if (beq d "-" || beq d "+")%bool then r else d :: r) as [|y x]; [discriminate|]. specialize (L (y :: x) 0%Z t). destruct (atoi_loop 0 (y :: x)); cbn [bind]; try discriminate. congruence.
  - unfold parse_int64. destruct (if (beq d "-" || beq d "+")%bool then r else d :: r); [discriminate|]. destruct (digits_acc 0 _); [|discriminate]. destruct (_ && _)%bool; discriminate.
Qed.
Lemma uint_plain s : plain (parse_uint_trim s).
Proof.
  intros t. unfold parse_uint_trim. destruct s as [|c s]; [discriminate|]. destruct (trim_space (c :: s)) as [|d r]; [discriminate|].
  generalize 0%N. revert d r. assert (L : forall x n, plain (parse_uint_loop n x)); [|intros d r n; apply L].
  induction x as [|y x IH]; intros n u; cbn [parse_uint_loop]; [discriminate|]. destruct (_ || _)%bool; [discriminate|]. cbv zeta. destruct (cutoff <=? n)%N; [discriminate|]. destruct (_ || _)%bool; [discriminate|]. apply IH.
Qed.
Lemma hash_plain h s : plain (fst (hash_unmarshal_base32 h s)).
Proof.
  intros t. unfold hash_unmarshal_base32, b32_decode_to. destruct (b32_decode [] (strip_newlines s)) as [out e] eqn:E.
  assert (X : forall x vs o e, b32_decode vs x = (o, Some e) -> e = err_corrupt).
  { clear. induction x as [|c x IH]; intros vs o e; cbn [b32_decode]; [discriminate|]. destruct (_ && _)%bool.
    - destruct (_ <? 7)%nat; [congruence|]. destruct (negb _); [congruence|]. destruct (_ || _)%bool; [congruence|discriminate].
    - destruct (sym_value c); [|congruence]. destruct (_ =? 8)%nat; [|apply IH]. destruct (b32_decode [] x) as [o' e'] eqn:D. intros H. injection H as <- ->. exact (IH _ _ _ D). }
  destruct (length h <? length out)%nat; [discriminate|]. destruct e as [e|]; [apply X in E; subst; discriminate|]. destruct (length out =? hash_size)%nat; discriminate.
Qed.
Lemma tth_plain s : plain (snd (new_tth s)).
Proof. unfold new_tth. pose proof (hash_plain (repeat x00 hash_size) s) as H. destruct (hash_unmarshal_base32 _ s) as [r h]. exact H. Qed.
Lemma name_end_plain f data : forall base, plain (name_end f data base).
Proof.
  induction f as [|f IH]; intros base t; cbn [name_end]; [discriminate|]. destruct (base <? length data)%nat; [|discriminate].
  destruct (index_stop (skipn base data)) as [j|]; [|destruct (base =? 0)%nat; discriminate].
  destruct (beq _ ">"); [|destruct (base =? 0)%nat; discriminate]. destruct (_ =? _)%nat; [discriminate|]. destruct (decode_rune _) as [r sz]. destruct (is_space_rune r); [discriminate|]. apply IH.
Qed.
Lemma tag_plain m tag : plain (snd (unmarshal_tag m tag)).
Proof.
  assert (V : forall m k v, plain (snd (tag_value m k v))).
  { intros x k v t. unfold tag_value. destruct k as [|c [|? ?]]; try discriminate.
    destruct (beq (upper_key c) "V"); [discriminate|]. destruct (beq (upper_key c) "M"); [discriminate|]. destruct (beq (upper_key c) "H").
    - destruct v as [|v0 v]; [discriminate|]. destruct (contains_byte "/" (v0 :: v)).
      + destruct (split_byte "/" (v0 :: v)) as [|a [|b [|g [|? ?]]]]; try discriminate.
        pose proof (atoi_plain a t). destruct (atoi_trim a); try discriminate; [|cbn; congruence]. pose proof (atoi_plain b t). destruct (atoi_trim b); try discriminate; [|cbn; congruence]. pose proof (atoi_plain g t). destruct (atoi_trim g); try discriminate; cbn; congruence.
      + pose proof (atoi_plain (v0 :: v) t). destruct (atoi_trim (v0 :: v)); try discriminate; cbn; congruence.
    - destruct (beq (upper_key c) "S"); [destruct (atoi_trim v); discriminate|discriminate]. }
  assert (L : forall l m cl first, plain (snd (tag_fields m cl first l))).
  { induction l as [|f l IH]; intros x cl first t; cbn [tag_fields]; [discriminate|]. destruct f as [|c f]; [apply IH|].
    destruct (cut ":" (c :: f)) as [[[|k ks] v]|]; [discriminate| |destruct first; [apply IH|discriminate]].
    pose proof (V x (k :: ks) v t) as P. destruct (tag_value x (k :: ks) v) as [x' r']. destruct r'; [apply IH|cbn in *; congruence|discriminate]. }
  intros t. unfold unmarshal_tag. destruct (match cut_seq (B " V:") tag with Some (c, t0) => (c, B "V:" ++ t0) | None => match cut_seq (B " v:") tag with Some (c, t0) => (c, B "v:" ++ t0) | None => ([], tag) end end) as [cl t1].
  pose proof (L (split_byte "," t1) (set_mi_extra m []) cl true t) as P. destruct (tag_fields _ cl true _) as [[m' c'] e]. cbn [snd] in P. destruct e; [discriminate|cbn; congruence|discriminate].
Qed.

(** Numbers, hashes and other parts which are not texts. *)
Ltac differ P H := exfalso; first [exact (P H)|injection H as ->; exact (P eq_refl)|discriminate H].
Ltac number H := match type of H with
  | snd (match atoi_trim ?s with Ok _ => _ | Err _ => _ | Panic => _ end) = Err (EUnknownEnc ?t) => let P := fresh in pose proof (atoi_plain s t) as P; destruct (atoi_trim s); cbn [snd] in H; [clear P|differ P H|discriminate H]
  | snd (match parse_uint_trim ?s with Ok _ => _ | Err _ => _ | Panic => _ end) = Err (EUnknownEnc ?t) => let P := fresh in pose proof (uint_plain s t) as P; destruct (parse_uint_trim s); cbn [snd] in H; [clear P|differ P H|discriminate H]
  end.
Ltac pursue H := repeat (follow H; try number H); follow H.

Lemma flags_plain f : forall m d, plain (snd (adcget_flags f m d)).
Proof.
  induction f as [|f IH]; intros m [|c d] t; cbn [adcget_flags]; try discriminate. destruct (cut_or_all (c :: d)) as [fl r].
  destruct (bytes_eqb fl (B "ZL1")); [apply IH|]. destruct (has_prefix (B "DB") fl); [|apply IH]. destruct (parse_uint_trim (skipn 2 fl)); try discriminate. apply IH.
Qed.

Lemma unknown_origin dec m a t : snd (msg_unmarshal dec m a) = Err (EUnknownEnc t) -> origin dec a t.
Proof.
  intros H. destruct m; cbn [msg_unmarshal] in H; try discriminate; unfold lift in H; cbn [snd] in H.
  - unfold name_msg_unmarshal in H. pursue H.
  - unfold string_msg_unmarshal in H. pursue H.
  - destruct a; discriminate.
  - unfold err_unmarshal in H. pursue H.
  - unfold names_unmarshal in H.
    assert (X : forall l e, names_sub dec l = Err (EUnknownEnc e) -> exists x, In x l /\ origin dec x e).
    { clear. induction l as [|x l IH]; intros e; cbn [names_sub]; [discriminate|]. destruct (name_unmarshal dec x) eqn:E; cbn [bind]; [|intros H; injection H as ->; exists x; split; [left; reflexivity|apply name_origin, E]|discriminate].
      destruct (names_sub dec l) eqn:F; cbn [bind]; try discriminate. intros H. injection H as ->. destruct (IH e eq_refl) as (y & I & O). exists y. split; [right; exact I|exact O]. }
    destruct (trim_suffix (B "$$") a) as [|c r] eqn:E; [discriminate|]. destruct (names_sub dec (split_seq (B "$$") (c :: r))) eqn:F; cbn [snd] in H; try discriminate. injection H as ->.
    apply X in F as (x & I & O). apply (origin_sub _ _ _ _ O). apply sub_split_seq in I; [|discriminate]. rewrite <- E in I. apply (sub_trans _ _ _ I), sub_trim_suffix.
  - unfold chat_unmarshal, chat_text in H. destruct a as [|c a]; [pursue H|]. destruct (beq c "<"); [|pursue H].
    pose proof (name_end_plain (S (length a)) a 0 t) as P. destruct (name_end _ a 0) as [[i off]| |]; cbn [snd] in H; [|differ P H|discriminate]. assert (substring a (c :: a)) by (exists [c], []; now rewrite app_nil_r). pursue H.
  - unfold pm_unmarshal in H. pursue H.
  - unfold mcto_unmarshal in H. pursue H.
  - unfold ucmd_unmarshal in H. pose proof (sub_splitn 2 " " (trim_white a)) as SP. destruct (splitn_byte 3 " " (trim_white a)) as [|a0 [|a1 arr]]; try discriminate.
    number H. number H. destruct arr as [|v arr]; [discriminate|]. destruct (cut "$" v) as [[[|c0 p] r]|] eqn:E; try discriminate.
    assert (X : forall l acc, plain (snd (unmarshal_path dec l acc))).
    { clear. induction l as [|x l IH]; intros acc t; cbn [unmarshal_path]; [discriminate|]. destruct x; [apply IH|]. destruct (string_unmarshal dec (b :: x)); try discriminate. apply IH. }
    specialize (X (split_byte "\" (trim_right_by is_sp (c0 :: p))) [] t). destruct (unmarshal_path dec _ []) as [pa r0]. cbn [snd] in X. destruct r0; [|differ X H|discriminate].
    apply sub_cut in E as [_ E]. assert (substring v a) by (apply (sub_trans _ (trim_white a)); [apply SP; cbn; auto|apply sub_trim_white]). clear SP. pursue H.
  - unfold ctm_unmarshal in H. destruct (cut " " a) as [[x y]|] eqn:E0; [|discriminate]. follow H.
    destruct (cut " " y) as [[u v]|] eqn:E1.
    + follow H. repeat match type of H with context [let '(_, _) := if ?b then _ else _ in _] => destruct b end; discriminate.
    + cbv zeta in H. repeat match type of H with context [let '(_, _) := if ?b then _ else _ in _] => destruct b end; discriminate.
  - unfold rctm_unmarshal in H. pursue H.
  - unfold adcget_unmarshal in H. follow H. match type of H with context [string_unmarshal dec ?x] => destruct (string_unmarshal dec x); try discriminate end. follow H. number H. match type of H with context [cut_or_all ?x] => destruct (cut_or_all x) as [ln r] end.
    destruct (bytes_eqb ln (B "-1")); [now apply flags_plain in H|]. number H. now apply flags_plain in H.
  - unfold adcsnd_unmarshal in H. follow H. match type of H with context [string_unmarshal dec ?x] => destruct (string_unmarshal dec x); try discriminate end. follow H. number H. match type of H with context [cut_or_all ?x] => destruct (cut_or_all x) as [ln r] end.
    number H. destruct r; [discriminate|]. follow H.
  - unfold direction_unmarshal in H. pursue H.
  - unfold hubinfo_unmarshal in H. pose proof (sub_splitn 12 "$" a) as SP. revert m H SP. generalize (splitn_byte 13 "$" a) as l. generalize 0%nat as i. intros i l. generalize (length l) as n. revert i.
    induction l as [|f l IH]; intros i n m H SP; cbn [hubinfo_fields] in H; [discriminate|].
    assert (SF : substring f a) by (apply SP; left; reflexivity). assert (SL : forall x, In x l -> substring x a) by (intros x I; apply SP; right; exact I). clear SP.
    destruct i as [|[|[|[|[|[|[|[|[|[|[|i]]]]]]]]]]]; cbn [hubinfo_field] in H.
    all: try (match goal with K : context [string_unmarshal ?dd ?ff] |- _ => destruct (string_unmarshal dd ff) eqn:E; [|cbn [snd] in H; injection H as ->; apply str_origin in E; apply (origin_sub _ _ _ _ E SF)|discriminate H] end).
    all: try (destruct (atoi_trim f); try discriminate).
    all: try (destruct (last_cut " " f) as [[? ?]|]).
    all: exact (IH _ _ _ H SL).
  - unfold search_unmarshal in H.
    assert (X : forall m x, substring x a -> snd (search_string dec m x) = Err (EUnknownEnc t) -> origin dec a t).
    { clear. intros m x SX H. unfold search_string in H. pose proof (sub_splitn 4 "?" x) as SP. destruct (splitn_byte 5 "?" x) as [|f0 [|f1 [|f2 [|f3 [|f4 [|? ?]]]]]]; try discriminate.
      assert (SF : substring f4 a) by (apply (sub_trans _ x); [apply SP; cbn; auto 6|exact SX]). clear SP.
      assert (FL : forall f, plain (unmarshal_flag f)) by (intros f u; unfold unmarshal_flag; destruct f as [|c [|? ?]]; try discriminate; destruct (beq c "T"); [discriminate|]; destruct (beq c "F"); discriminate).
      pose proof (FL f0 t) as P0. destruct (unmarshal_flag f0); cbn [snd] in H; [|differ P0 H|discriminate]. pose proof (FL f1 t) as P1. destruct (unmarshal_flag f1); cbn [snd] in H; [|differ P1 H|discriminate].
      match type of H with context [search_size ?m0 f2] => assert (PR : plain (snd (search_size m0 f2))); [|specialize (PR t); destruct (search_size m0 f2) as [m' r]] end.
      { intros u. unfold search_size. destruct f2 as [|c f2]; [discriminate|]. destruct (beq c "-"); [pose proof (uint_plain f2 u); destruct (parse_uint_trim f2)|pose proof (uint_plain (c :: f2) u); destruct (parse_uint_trim (c :: f2))]; cbn [snd]; congruence. }
      cbn [snd] in PR. destruct r as [u| |]; cbn [snd] in H; [|differ PR H|discriminate].
      number H. unfold search_what in H. cbn [set_se_dtype se_dtype] in H. destruct (_ =? data_tth)%N.
      - destruct (has_prefix (B "TTH:") f4); [|discriminate]. cbv zeta in H. match type of H with context [new_tth ?s] => pose proof (tth_plain s t) as TP; destruct (new_tth s) as [h r] end. cbn [snd] in *. contradiction.
      - follow H. }
    destruct (cut " " a) as [[x y]|] eqn:E0; [|discriminate]. destruct (has_prefix (B "Hub:") x).
    + follow H. apply sub_cut in E0 as [_ E0]. exact (X _ _ E0 H).
    + apply sub_cut in E0 as [_ E0]. exact (X _ _ E0 H).
  - assert (T1 : forall m x, substring x a -> snd (sr_tail dec m x) = Err (EUnknownEnc t) -> origin dec a t).
    { clear. intros m x SX H. unfold sr_tail in H. destruct (cut ")" x) as [[b b0]|] eqn:E; [|discriminate]. cbv zeta in H. destruct b0 as [|c [|c' r]]; try discriminate. apply sub_cut in E as [_ E]. destruct (beq c sr_sep); [|discriminate].
      assert (substring (c' :: r) (c :: c' :: r)) by (exists [c], []; now rewrite app_nil_r). follow H. }
    assert (T2 : forall m x, substring x a -> snd (sr_hub dec m x) = Err (EUnknownEnc t) -> origin dec a t).
    { clear - T1. intros m x SX H. unfold sr_hub in H. destruct (has_prefix (B "TTH:") x).
      - cbv zeta in H. destruct (has_prefix (B " (") _); [|discriminate]. match type of H with context [new_tth ?s] => pose proof (tth_plain s t) as TP; destruct (new_tth s) as [h r] end. cbn [snd] in *. destruct r; [|first [differ P H|differ TP H]|discriminate].
        apply (T1 _ _ (sub_trans _ _ _ (sub_skipn _ _) (sub_trans _ _ _ (sub_skipn _ _) SX)) H).
      - follow H. apply sub_cut_seq in E as [_ E]. exact (T1 _ _ (sub_trans _ _ _ E SX) H). }
    assert (T3 : forall m p s x, substring p a -> substring x a -> snd (sr_slots dec m p s x) = Err (EUnknownEnc t) -> origin dec a t).
    { clear - T2. intros m p s x SP SX H. unfold sr_slots in H. follow H. cbv zeta in H. destruct (cut "/" s) as [[f g]|]; [|discriminate]. number H. number H. exact (T2 _ _ SX H). }
    unfold sr_unmarshal in H. destruct (cut " " a) as [[b b0]|] eqn:E; [|discriminate]. destruct (name_unmarshal dec b) eqn:EN; [|cbn [snd] in H; injection H as ->; apply name_origin in EN; subs; apply (origin_sub _ _ _ _ EN); chase|discriminate]. cbv zeta in H. destruct (cut sr_sep b0) as [[b1 b2]|] eqn:F1; [|discriminate]. apply sub_cut in E as [_ E]. apply sub_cut in F1 as [F1 F2].
    pose proof (sub_trans _ _ _ F1 E) as S1. pose proof (sub_trans _ _ _ F2 E) as S2.
    assert (R : forall m0, snd (match cut sr_sep b2 with None => (m0, Err (EText "invalid SR command: missing size")) | Some (sizeslots, data) => match cut " " sizeslots with None => (m0, Err (EText "invalid SR command: missing size separator"))
       | Some (size, slots) => do n <- parse_uint_trim size keeping set_sr_size m0 0; sr_slots dec (set_sr_size m0 n) b1 slots data end end) = Err (EUnknownEnc t) -> origin dec a t).
    { intros m0 K. destruct (cut sr_sep b2) as [[u v]|] eqn:G; [|discriminate]. apply sub_cut in G as [_ G]. destruct (cut " " u) as [[sz sl]|]; [|discriminate]. number K. apply (T3 _ _ _ _ S1 (sub_trans _ _ _ G S2) K). }
    destruct (sr_scan (rev b1) false []) as [[|] [[p sl]|]] eqn:SC; try (exact (R _ H)).
    apply (T3 _ _ _ _) in H; [exact H| |exact S2]. apply (sub_trans _ b1); [|exact S1].
    assert (Q : forall x seen acc p s, sr_scan x seen acc = (true, Some (p, s)) -> substring p (rev x)).
    { clear. induction x as [|c x IH]; intros seen acc p s; cbn [sr_scan]; [discriminate|]. destruct (beq c "/"); [intros H; apply IH in H; apply (sub_trans _ _ _ H); exists [], [c]; reflexivity|].
      destruct (_ || _)%bool; [intros H; injection H as -> <- <-; exists [], [c]; reflexivity|]. intros H; apply IH in H; apply (sub_trans _ _ _ H); exists [], [c]; reflexivity. }
    apply Q in SC. rewrite rev_involutive in SC. exact SC.
  - unfold sa_unmarshal in H. destruct (skipn base32_size a) as [|c r]; [discriminate|]. destruct (beq c " "); [|discriminate].
    match type of H with context [hash_unmarshal_base32 ?h ?s] => pose proof (hash_plain h s t) as P; destruct (hash_unmarshal_base32 h s) as [r0 h0] end. cbn [fst] in P. destruct r0; cbn [snd] in H; [discriminate|contradiction|discriminate].
  - unfold sp_unmarshal in H. pose proof (sub_skipn base32_size a) as SK. destruct (skipn base32_size a) as [|c r]; [discriminate|]. destruct (beq c " "); [|discriminate].
    match type of H with context [hash_unmarshal_base32 ?h ?s] => pose proof (hash_plain h s t) as P; destruct (hash_unmarshal_base32 h s) as [r0 h0] end. cbn [fst] in P. destruct r0; cbn [snd] in H; [|first [differ P H|differ TP H]|discriminate].
    assert (substring r (c :: r)) by (exists [c], []; now rewrite app_nil_r). follow H.
  - unfold myinfo_unmarshal in H. destruct (has_prefix (B "$ALL ") a); [|discriminate]. destruct (cut " " (skipn 5 a)) as [[n y]|] eqn:E0; [|discriminate]. apply sub_cut in E0 as [SN SY]. follow H.
    assert (SA : substring y a) by (apply (sub_trans _ _ _ SY), sub_skipn). clear SN SY.
    pose proof (sub_split "$" y) as SP. destruct (split_byte "$" y) as [|f0 [|f1 [|f2 [|f3 [|f4 [|f5 [|? ?]]]]]]]; try discriminate.
    assert (S0 : substring f0 a) by (apply (sub_trans _ y); [apply SP; cbn; auto 8|exact SA]). assert (S2 : substring f2 a) by (apply (sub_trans _ y); [apply SP; cbn; auto 8|exact SA]).
    assert (S3 : substring f3 a) by (apply (sub_trans _ y); [apply SP; cbn; auto 8|exact SA]). clear SP SA.
    assert (D : forall m, snd (myinfo_desc dec m f0) = Err (EUnknownEnc t) -> origin dec a t).
    { clear - S0. intros m H. unfold myinfo_desc in H. destruct (last_cut "<" f0) as [[ds tg]|] eqn:E.
      - destruct tg as [|t0 tg]; [discriminate|]. cbv zeta in H. match type of H with context [unmarshal_tag ?m ?x] => pose proof (tag_plain m x t) as TP; destruct (unmarshal_tag m x) as [m' r] end.
        cbn [snd] in TP. destruct r; [|first [differ P H|differ TP H]|discriminate]. follow H.
      - cbv zeta in H. follow H. }
    match type of H with context [myinfo_desc dec ?m f0] => specialize (D m); destruct (myinfo_desc dec m f0) as [m' r] end. destruct r as [tg| |]; [|cbn [snd] in H; injection H as ->; apply D; reflexivity|discriminate].
    unfold myinfo_rest, myinfo_end in H. destruct f1 as [|md [|? ?]]; try discriminate. destruct (rev f2) as [|fl ?].
    + follow H; destruct f4; discriminate.
    + cbv zeta in H. follow H; destruct f4; discriminate.
  - unfold userip_unmarshal in H.
    assert (X : forall l acc e, snd (userip_sub dec l acc) = Err (EUnknownEnc e) -> exists x, In x l /\ origin dec x e).
    { clear. induction l as [|x l IH]; intros acc e; cbn [userip_sub]; [discriminate|]. destruct (last_cut " " x) as [[n ip]|] eqn:L.
      - apply sub_last_cut in L as [L _]. destruct (name_unmarshal dec n) eqn:E; cbn [snd]; [|intros H; injection H as ->; exists x; split; [left; reflexivity|apply name_origin in E; apply (origin_sub _ _ _ _ E L)]|discriminate].
        intros H. apply IH in H as (y & I & O). exists y. split; [right; exact I|exact O].
      - destruct (name_unmarshal dec x) eqn:E; cbn [snd]; [|intros H; injection H as ->; exists x; split; [left; reflexivity|apply name_origin, E]|discriminate].
        intros H. apply IH in H as (y & I & O). exists y. split; [right; exact I|exact O]. }
    apply X in H as (x & I & O). apply (origin_sub _ _ _ _ O). apply sub_split_seq in I; [|discriminate]. apply (sub_trans _ _ _ I). apply (sub_trans _ _ _ (sub_trim_suffix _ _)), sub_trim_suffix.
Qed.

(** ** Decoding again *)

(** Splits every test of the three runs. *)
Ltac atoms := repeat (cbn [fst snd]; match goal with
  | |- context [match string_unmarshal ?dd ?x with Ok _ => _ | Err _ => _ | Panic => _ end] => destruct (string_unmarshal dd x)
  | |- context [match name_unmarshal ?dd ?x with Ok _ => _ | Err _ => _ | Panic => _ end] => destruct (name_unmarshal dd x)
  | |- context [match atoi_trim ?x with Ok _ => _ | Err _ => _ | Panic => _ end] => destruct (atoi_trim x)
  | |- context [match parse_uint_trim ?x with Ok _ => _ | Err _ => _ | Panic => _ end] => destruct (parse_uint_trim x)
  | |- context [match cut ?c ?x with Some _ => _ | None => _ end] => destruct (cut c x) as [[? ?]|]
  | |- context [match cut_seq ?c ?x with Some _ => _ | None => _ end] => destruct (cut_seq c x) as [[? ?]|]
  | |- context [if ?b then _ else _] => destruct b
  end).
Ltac settle := first [apply alike_refl|apply alike_fail; discriminate].

Lemma chat_again dec d m a : alike (chat_unmarshal d (fst (chat_unmarshal dec m a)) a) (chat_unmarshal d m a).
Proof.
  unfold chat_unmarshal, chat_text. destruct m as [q1 q2]. destruct a as [|c a]; [atoms; settle|]. destruct (beq c "<"); [|atoms; settle]. destruct (name_end _ a 0) as [[i off]| |]; cbn [fst]; [|settle|settle]. atoms; settle.
Qed.
Lemma ucmd_again dec d m a : alike (ucmd_unmarshal d (fst (ucmd_unmarshal dec m a)) a) (ucmd_unmarshal d m a).
Proof.
  unfold ucmd_unmarshal. destruct m as [q1 q2 q3 q4]. destruct (splitn_byte 3 " " (trim_white a)) as [|a0 [|a1 arr]]; cbn [fst]; try settle.
  destruct (atoi_trim a0); cbn [fst]; [|settle|settle]. destruct (atoi_trim (take_digits a1)); cbn [fst]; [|settle|settle]. destruct arr as [|v arr]; cbn [fst]; [settle|]. destruct (cut "$" v) as [[[|c0 p] r]|]; cbn [fst]; try settle.
  destruct (unmarshal_path dec _ []) as [p1 r1]. destruct (unmarshal_path d _ []) as [p2 r2].
  destruct r1, r2; cbn [fst]; try settle; atoms; settle.
Qed.

(** The assignments to the fields of a Search. *)
Inductive swrite := SwAddr (x : bytes) | SwUser (x : bytes) | SwRestr (x : bool) | SwMax (x : bool) | SwSize (x : N) | SwType (x : N) | SwPat (x : bytes) | SwTth (x : option bytes).
(** Making the assignment. *)
Definition sap (w : swrite) (m : search) : search :=
  match w with
  | SwAddr x => set_se_address m x | SwUser x => set_se_user m x | SwRestr x => set_se_restricted m x | SwMax x => set_se_ismax m x
  | SwSize x => set_se_size m x | SwType x => set_se_dtype m x | SwPat x => set_se_pattern m x | SwTth x => set_se_tth m x
  end.
(** The field assigned. *)
Definition stag (w : swrite) : nat :=
  match w with SwAddr _ => 0 | SwUser _ => 1 | SwRestr _ => 2 | SwMax _ => 3 | SwSize _ => 4 | SwType _ => 5 | SwPat _ => 6 | SwTth _ => 7 end.
Lemma s_same w v s : stag w = stag v -> sap w (sap v s) = sap w s.
Proof. destruct w, v; cbn [stag]; intros H; try discriminate H; reflexivity. Qed.
Lemma s_other w v s : stag w <> stag v -> sap w (sap v s) = sap v (sap w s).
Proof. destruct w, v; cbn [stag]; intros H; try reflexivity; contradiction. Qed.
(** Coverage for Search. *)
Notation scovers := (covers sap stag).
Lemma search_string_covers dec d x : scovers (fun m => search_string dec m x) (fun m => search_string d m x).
Proof.
  unfold search_string. destruct (splitn_byte 5 "?" x) as [|f0 [|f1 [|f2 [|f3 [|f4 [|? ?]]]]]]; try apply covers_stop.
  assert (ST : forall w (r : res unit), scovers (fun m => (sap w m, r)) (fun m => (sap w m, r))) by (intros w r; apply (covers_set sap stag (fun m => (m, r)) (fun m => (m, r)) w w eq_refl), covers_stop).
  destruct (unmarshal_flag f0) as [r0|e|]; [|apply (ST (SwRestr false))|apply (ST (SwRestr false))]. cbv zeta.
  destruct (unmarshal_flag f1) as [r1|e|]; [|apply (covers_set sap stag (fun m => (sap (SwMax false) m, Err e)) (fun m => (sap (SwMax false) m, Err e)) (SwRestr r0) (SwRestr r0) eq_refl), ST|apply (covers_set sap stag (fun m => (sap (SwMax false) m, Panic)) (fun m => (sap (SwMax false) m, Panic)) (SwRestr r0) (SwRestr r0) eq_refl), ST].
  set (rest := fun dd m => let '(m, e) := search_size m f2 in do u <- e keeping m; do t <- parse_uint_trim f3 keeping m; search_what dd (set_se_dtype m t) f4).
  apply (covers_set sap stag (fun m => rest dec (sap (SwMax r1) m)) (fun m => rest d (sap (SwMax r1) m)) (SwRestr r0) (SwRestr r0) eq_refl).
  apply (covers_set sap stag (rest dec) (rest d) (SwMax r1) (SwMax r1) eq_refl).
  assert (W : scovers (fun m0 => do t <- parse_uint_trim f3 keeping m0; search_what dec (set_se_dtype m0 t) f4) (fun m0 => do t <- parse_uint_trim f3 keeping m0; search_what d (set_se_dtype m0 t) f4)).
  { destruct (parse_uint_trim f3) as [t| |]; [|apply covers_stop|apply covers_stop].
    set (what := fun dd m => if (t =? data_tth)%N then if has_prefix (B "TTH:") f4 then let h := skipn 4 f4 in let h := if last_is "$" h then drop_last h else h in let '(tt0, r) := new_tth h in (set_se_tth m (Some tt0), r) else (m, Err (EText "invalid TTH search"))
      else do s <- string_unmarshal dd f4 keeping m; (set_se_pattern m (replace_byte "$" " " s), Ok tt)).
    apply (covers_ext sap stag _ (fun m => what dec (sap (SwType t) m)) _ (fun m => what d (sap (SwType t) m))); [reflexivity|reflexivity|].
    apply (covers_set sap stag (what dec) (what d) (SwType t) (SwType t) eq_refl). unfold what. destruct (t =? data_tth)%N.
    - destruct (has_prefix (B "TTH:") f4); [|apply covers_stop]. cbv zeta. destruct (new_tth _) as [h r]. apply (covers_set sap stag (fun m => (m, r)) (fun m => (m, r)) (SwTth (Some h)) (SwTth (Some h)) eq_refl), covers_stop.
    - apply (covers_bind sap stag _ _ (fun s m => (sap (SwPat (replace_byte "$" " " s)) m, Ok tt)) (fun s m => (sap (SwPat (replace_byte "$" " " s)) m, Ok tt))). intros u v.
      apply (covers_set sap stag (fun m => (m, Ok tt)) (fun m => (m, Ok tt))); [reflexivity|apply covers_stop]. }
  unfold rest, search_size. destruct f2 as [|c f2]; [exact W|]. destruct (beq c "-").
  - destruct (parse_uint_trim f2) as [n|e|]; cbn [bind]; [|apply covers_stop|apply covers_stop].
    apply (covers_set sap stag (fun m => (fun m0 => do t <- parse_uint_trim f3 keeping m0; search_what dec (set_se_dtype m0 t) f4) (sap (SwSize 0) m)) (fun m => (fun m0 => do t <- parse_uint_trim f3 keeping m0; search_what d (set_se_dtype m0 t) f4) (sap (SwSize 0) m)) (SwRestr false) (SwRestr false) eq_refl).
    apply (covers_set sap stag (fun m0 => do t <- parse_uint_trim f3 keeping m0; search_what dec (set_se_dtype m0 t) f4) (fun m0 => do t <- parse_uint_trim f3 keeping m0; search_what d (set_se_dtype m0 t) f4) (SwSize 0) (SwSize 0) eq_refl W).
  - destruct (parse_uint_trim (c :: f2)) as [n|e|]; [|apply (ST (SwSize 0%N))|apply (ST (SwSize 0%N))].
    apply (covers_set sap stag (fun m0 => do t <- parse_uint_trim f3 keeping m0; search_what dec (set_se_dtype m0 t) f4) (fun m0 => do t <- parse_uint_trim f3 keeping m0; search_what d (set_se_dtype m0 t) f4) (SwSize n) (SwSize n) eq_refl W).
Qed.
Lemma search_covers dec d a : scovers (fun m => search_unmarshal dec m a) (fun m => search_unmarshal d m a).
Proof.
  unfold search_unmarshal. destruct (cut " " a) as [[x y]|]; [|apply covers_stop]. destruct (has_prefix (B "Hub:") x).
  - apply (covers_bind sap stag _ _ (fun n m => search_string dec (sap (SwUser n) m) y) (fun n m => search_string d (sap (SwUser n) m) y)). intros u v.
    apply (covers_set sap stag (fun m => search_string dec m y) (fun m => search_string d m y)); [reflexivity|apply search_string_covers].
  - apply (covers_set sap stag (fun m => search_string dec m y) (fun m => search_string d m y) (SwAddr x) (SwAddr x)); [reflexivity|apply search_string_covers].
Qed.

(** The assignments to the fields of an SR. *)
Inductive rwrite := RwFrom (x : bytes) | RwPath (x : list bytes) | RwDir (x : bool) | RwSize (x : N) | RwFree (x : Z) | RwTotal (x : Z) | RwHub (x : bytes) | RwTth (x : option bytes) | RwAddr (x : bytes) | RwTo (x : bytes).
(** Making the assignment. *)
Definition rap (w : rwrite) (m : sr) : sr :=
  match w with
  | RwFrom x => set_sr_from m x | RwPath x => set_sr_path m x | RwDir x => set_sr_isdir m x | RwSize x => set_sr_size m x | RwFree x => set_sr_free m x
  | RwTotal x => set_sr_total m x | RwHub x => set_sr_hubname m x | RwTth x => set_sr_tth m x | RwAddr x => set_sr_hubaddr m x | RwTo x => set_sr_to m x
  end.
(** The field assigned. *)
Definition rtag (w : rwrite) : nat :=
  match w with RwFrom _ => 0 | RwPath _ => 1 | RwDir _ => 2 | RwSize _ => 3 | RwFree _ => 4 | RwTotal _ => 5 | RwHub _ => 6 | RwTth _ => 7 | RwAddr _ => 8 | RwTo _ => 9 end.
Lemma r_same w v s : rtag w = rtag v -> rap w (rap v s) = rap w s.
Proof. destruct w, v; cbn [rtag]; intros H; try discriminate H; reflexivity. Qed.
Lemma r_other w v s : rtag w <> rtag v -> rap w (rap v s) = rap v (rap w s).
Proof. destruct w, v; cbn [rtag]; intros H; try reflexivity; contradiction. Qed.
(** Coverage for SR. *)
Notation rcovers := (covers rap rtag).
Lemma sr_tail_covers dec d x : rcovers (fun m => sr_tail dec m x) (fun m => sr_tail d m x).
Proof.
  unfold sr_tail. destruct (cut ")" x) as [[ad y]|]; [|apply covers_stop]. cbv zeta.
  set (F := fun dd m => match y with [] => (m, Ok tt) | [_] => (m, Err (EText "invalid SR command: missing target")) | c :: data => if beq c sr_sep then do n <- name_unmarshal dd data keeping m; (set_sr_to m n, Ok tt) else (m, Err (EText "invalid SR command: missing target")) end).
  apply (covers_set rap rtag (F dec) (F d) (RwAddr ad) (RwAddr ad) eq_refl). unfold F. destruct y as [|c [|c' r]]; try apply covers_stop. destruct (beq c sr_sep); [|apply covers_stop].
  apply (covers_bind rap rtag _ _ (fun n m => (rap (RwTo n) m, Ok tt)) (fun n m => (rap (RwTo n) m, Ok tt))). intros u v. apply (covers_set rap rtag (fun m => (m, Ok tt)) (fun m => (m, Ok tt))); [reflexivity|apply covers_stop].
Qed.
Lemma sr_hub_covers dec d x : rcovers (fun m => sr_hub dec m x) (fun m => sr_hub d m x).
Proof.
  unfold sr_hub. destruct (has_prefix (B "TTH:") x).
  - cbv zeta. destruct (has_prefix (B " (") _); [|apply covers_stop]. destruct (new_tth _) as [h r]. destruct r as [u|e|].
    + apply (covers_set rap rtag (fun m => sr_tail dec m _) (fun m => sr_tail d m _) (RwTth (Some h)) (RwTth (Some h)) eq_refl), sr_tail_covers.
    + apply (covers_set rap rtag (fun m => (m, Err e)) (fun m => (m, Err e)) (RwTth (Some h)) (RwTth (Some h)) eq_refl), covers_stop.
    + apply (covers_set rap rtag (fun m => (m, Panic)) (fun m => (m, Panic)) (RwTth (Some h)) (RwTth (Some h)) eq_refl), covers_stop.
  - destruct (cut_seq (B " (") x) as [[h y]|]; [|apply covers_stop].
    apply (covers_bind rap rtag _ _ (fun s m => sr_tail dec (rap (RwHub s) m) y) (fun s m => sr_tail d (rap (RwHub s) m) y)). intros u v.
    apply (covers_set rap rtag (fun m => sr_tail dec m y) (fun m => sr_tail d m y)); [reflexivity|apply sr_tail_covers].
Qed.
Lemma sr_slots_covers dec d p s x : rcovers (fun m => sr_slots dec m p s x) (fun m => sr_slots d m p s x).
Proof.
  assert (ST : forall w (r : res unit), rcovers (fun m => (rap w m, r)) (fun m => (rap w m, r))) by (intros w r; apply (covers_set rap rtag (fun m => (m, r)) (fun m => (m, r)) w w eq_refl), covers_stop).
  unfold sr_slots.
  set (F := fun dd m => match cut "/" s with None => (m, Err (EText "invalid SR command: missing slots separator")) | Some (f, t) => do free <- atoi_trim f keeping set_sr_free m (atoi_value f); let m := set_sr_free m free in do total <- atoi_trim t keeping set_sr_total m (atoi_value t); sr_hub dd (set_sr_total m total) x end).
  apply (covers_bind rap rtag _ _ (fun _ m => F dec (rap (RwPath (split_byte "\" p)) m)) (fun _ m => F d (rap (RwPath (split_byte "\" p)) m))). intros _ _.
  apply (covers_set rap rtag (F dec) (F d)); [reflexivity|]. unfold F. destruct (cut "/" s) as [[f t]|]; [|apply covers_stop]. cbv zeta.
  destruct (atoi_trim f) as [z|e|]; [|apply (ST (RwFree (atoi_value f)))|apply (ST (RwFree (atoi_value f)))].
  apply (covers_set rap rtag (fun m => do total <- atoi_trim t keeping set_sr_total m (atoi_value t); sr_hub dec (set_sr_total m total) x) (fun m => do total <- atoi_trim t keeping set_sr_total m (atoi_value t); sr_hub d (set_sr_total m total) x) (RwFree z) (RwFree z) eq_refl).
  destruct (atoi_trim t) as [w|e|]; [|apply (ST (RwTotal (atoi_value t)))|apply (ST (RwTotal (atoi_value t)))].
  apply (covers_set rap rtag (fun m => sr_hub dec m x) (fun m => sr_hub d m x) (RwTotal w) (RwTotal w) eq_refl), sr_hub_covers.
Qed.
Lemma sr_covers dec d a : rcovers (fun m => sr_unmarshal dec m a) (fun m => sr_unmarshal d m a).
Proof.
  unfold sr_unmarshal. destruct (cut " " a) as [[n y]|]; [|apply covers_stop].
  set (G := fun dd may z m => match cut sr_sep z with None => (m, Err (EText "invalid SR command: missing size")) | Some (sizeslots, data) => match cut " " sizeslots with None => (m, Err (EText "invalid SR command: missing size separator"))
       | Some (size, slots) => do n <- parse_uint_trim size keeping set_sr_size m 0; sr_slots dd (set_sr_size m n) may slots data end end).
  set (F := fun dd m => match cut sr_sep y with None => (m, Err (EText "invalid SR command: missing separator")) | Some (may, z) => match sr_scan (rev may) false [] with (true, Some (path, slots)) => sr_slots dd (set_sr_size (set_sr_isdir m true) 0) path slots z | _ => G dd may z (set_sr_isdir m false) end end).
  apply (covers_bind rap rtag _ _ (fun name m => F dec (rap (RwFrom name) m)) (fun name m => F d (rap (RwFrom name) m))). intros u v.
  apply (covers_set rap rtag (F dec) (F d)); [reflexivity|]. unfold F. destruct (cut sr_sep y) as [[may z]|]; [|apply covers_stop].
  assert (C : rcovers (fun m => G dec may z (set_sr_isdir m false)) (fun m => G d may z (set_sr_isdir m false))).
  { apply (covers_set rap rtag (G dec may z) (G d may z) (RwDir false) (RwDir false) eq_refl). unfold G. destruct (cut sr_sep z) as [[ss z']|]; [|apply covers_stop]. destruct (cut " " ss) as [[sz sl]|]; [|apply covers_stop].
    destruct (parse_uint_trim sz) as [k|e|]; [|apply (covers_set rap rtag (fun m => (m, Err e)) (fun m => (m, Err e)) (RwSize 0%N) (RwSize 0%N) eq_refl), covers_stop|apply (covers_set rap rtag (fun m => (m, Panic)) (fun m => (m, Panic)) (RwSize 0%N) (RwSize 0%N) eq_refl), covers_stop]. apply (covers_set rap rtag (fun m => sr_slots dec m may sl z') (fun m => sr_slots d m may sl z') (RwSize k) (RwSize k) eq_refl), sr_slots_covers. }
  destruct (sr_scan (rev may) false []) as [[|] [[p sl]|]]; try exact C.
  apply (covers_set rap rtag (fun m => sr_slots dec (rap (RwSize 0) m) p sl z) (fun m => sr_slots d (rap (RwSize 0) m) p sl z) (RwDir true) (RwDir true) eq_refl).
  apply (covers_set rap rtag (fun m => sr_slots dec m p sl z) (fun m => sr_slots d m p sl z) (RwSize 0) (RwSize 0) eq_refl), sr_slots_covers.
Qed.

Lemma unmarshal_keeps h s : length h = 24 -> length (snd (hash_unmarshal_base32 h s)) = 24.
Proof.
  intros L. unfold hash_unmarshal_base32, b32_decode_to. destruct (b32_decode [] (strip_newlines s)) as [out e]. destruct (Nat.ltb_spec (length h) (length out)) as [K|K]; [exact L|].
  assert (X : length (out ++ skipn (length out) h) = 24) by (rewrite app_length, skipn_length; lia). destruct e; [exact X|]. destruct (length out =? hash_size)%nat; exact X.
Qed.
Lemma again dec d m a t : sized m -> snd (msg_unmarshal dec m a) = Err (EUnknownEnc t) -> alike (msg_unmarshal d (fst (msg_unmarshal dec m a)) a) (msg_unmarshal d m a).
Proof.
  intros SZ H. destruct m; cbn [msg_unmarshal lift fst]; try apply alike_lift; try apply alike_refl; cbn [msg_unmarshal] in H; unfold lift in H; cbn [snd] in H.
  - unfold name_msg_unmarshal. atoms; settle.
  - unfold string_msg_unmarshal. atoms; settle.
  - unfold err_unmarshal in *. destruct (string_unmarshal dec a); [discriminate|apply alike_refl|discriminate].
  - unfold names_unmarshal. destruct (trim_suffix (B "$$") a); [settle|]. destruct (names_sub dec _), (names_sub d _); settle.
  - apply chat_again.
  - unfold pm_unmarshal. destruct m as [q1 q2 q3 q4]. atoms; settle.
  - unfold mcto_unmarshal. destruct m as [q1 q2 q3]. atoms; settle.
  - apply ucmd_again.
  - unfold ctm_unmarshal in *. destruct (cut " " a) as [[x y]|]; [|discriminate]. destruct (name_unmarshal dec x); [|cbn [fst]; apply alike_refl|discriminate].
    destruct (cut " " y) as [[ad s]|]; [|repeat match type of H with context [let '(_, _) := if ?b then _ else _ in _] => destruct b end; discriminate].
    destruct (name_unmarshal dec s); [repeat match type of H with context [let '(_, _) := if ?b then _ else _ in _] => destruct b end; discriminate| |discriminate]. cbn [fst].
    destruct m as [q1 q2 q3 q4 q5]. destruct (name_unmarshal d x); settle.
  - unfold rctm_unmarshal. destruct m as [q1 q2]. atoms; settle.
  - unfold adcget_unmarshal in *. destruct m as [q1 q2 q3 q4 q5 q6]. destruct (cut " " a) as [[x y]|]; [|discriminate]. destruct (string_unmarshal dec x); [|cbn [fst]; apply alike_refl|discriminate]. exfalso.
    destruct (cut " " y) as [[u v]|]; [|discriminate]. destruct (string_unmarshal dec u); try discriminate. destruct (cut " " v) as [[s w]|]; [|discriminate]. number H. match type of H with context [cut_or_all ?x] => destruct (cut_or_all x) as [ln r] end.
    destruct (bytes_eqb ln (B "-1")); [now apply flags_plain in H|]. number H. now apply flags_plain in H.
  - unfold adcsnd_unmarshal in *. destruct m as [q1 q2 q3 q4 q5]. destruct (cut " " a) as [[x y]|]; [|discriminate]. destruct (string_unmarshal dec x); [|cbn [fst]; apply alike_refl|discriminate]. exfalso.
    destruct (cut " " y) as [[u v]|]; [|discriminate]. destruct (string_unmarshal dec u); try discriminate. destruct (cut " " v) as [[s w]|]; [|discriminate]. number H. match type of H with context [cut_or_all ?x] => destruct (cut_or_all x) as [ln r] end.
    number H. destruct r; [discriminate|]. destruct (bytes_eqb (b :: r) (B "ZL1")); discriminate.
  - unfold direction_unmarshal in *. exfalso. destruct (cut " " a) as [[x y]|]; [|discriminate]. destruct (bytes_eqb x (B "Download")); [number H; destruct (_ || _)%bool; discriminate|]. destruct (bytes_eqb x (B "Upload")); [number H; destruct (_ || _)%bool; discriminate|discriminate].
  - unfold hubinfo_unmarshal. apply (covers_again hap htag h_same h_other _ _ m (hubinfo_covers dec d (length (splitn_byte 13 "$" a)) (splitn_byte 13 "$" a) 0)).
  - apply (covers_again sap stag s_same s_other _ _ m (search_covers dec d a)).
  - apply (covers_again rap rtag r_same r_other _ _ m (sr_covers dec d a)).
  - unfold sa_unmarshal in *. exfalso. destruct (skipn base32_size a) as [|c r]; [discriminate|]. destruct (beq c " "); [|discriminate].
    match type of H with context [hash_unmarshal_base32 ?h ?s] => pose proof (hash_plain h s t) as P; destruct (hash_unmarshal_base32 h s) as [r0 h0] end. cbn [fst] in P. destruct r0; cbn [snd] in H; [discriminate|differ P H|discriminate].
  - unfold sp_unmarshal in *. destruct m as [h u]. cbn [sized sp_tth] in *. destruct (skipn base32_size a) as [|c r]; [discriminate|]. destruct (beq c " "); [|discriminate].
    pose proof (hash_plain h (firstn base32_size a) t) as P. pose proof (unmarshal_keeps h (firstn base32_size a) SZ) as L. destruct (hash_unmarshal_base32 h (firstn base32_size a)) as [r0 h0] eqn:E0. cbn [fst snd] in P, L.
    destruct r0 as [[]| |]; cbn [snd] in H; [|differ P H|discriminate]. destruct (name_unmarshal dec r); cbn [snd] in H; [discriminate| |discriminate]. cbn [fst set_sp_tth sp_tth sp_user].
    destruct (hash_independent h0 h (firstn base32_size a)) as [I1 I2]; [exact L|exact SZ|]. rewrite E0 in I1, I2. cbn [fst snd] in I1, I2. destruct (hash_unmarshal_base32 h0 (firstn base32_size a)) as [r1 h1]. cbn [fst snd] in I1, I2. subst r1.
    rewrite (I2 eq_refl). destruct (name_unmarshal d r); settle.
  - apply (covers_again map_ mtag m_same m_other _ _ m (myinfo_covers dec d a)).
Qed.
