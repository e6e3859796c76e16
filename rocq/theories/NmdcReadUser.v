(** Reading relations: user information. *)
From Coq Require Import Permutation.
From Verif Require Import Base BaseFacts Num NumFacts NumSpec Utf8 Utf8Facts SpecText SpecHash SpecNmdc SpecRead HtmlReadFacts NmdcText NmdcTextFacts.
From Verif Require Import NmdcChat NmdcHub NmdcFiles NmdcUser NmdcMessage NmdcChatFacts NmdcReadFacts NmdcReadChat.

Lemma letter_key c : upper_key c = letter c.
Proof. reflexivity. Qed.
Lemma byte_string_utf8 c : byte_string c = utf8_of (b2n c).
Proof.
  assert (H : forallb (fun c => bytes_eqb (byte_string c) (utf8_of (b2n c))) (map n2b (map N.of_nat (seq 0 256))) = true) by (vm_compute; reflexivity).
  rewrite forallb_forall in H. apply bytes_eqb_true. apply H. replace c with (n2b (b2n c)) by apply n2b_b2n. apply in_map. apply in_map_iff. exists (N.to_nat (b2n c)). split; [apply N2Nat.id|].
  apply in_seq. pose proof (b2n_lt c). lia.
Qed.

(** The effect of a field. *)
Definition apply_item (m : myinfo) (i : item) : myinfo :=
  match i with
  | IClient _ | INothing => m
  | IVersion v => set_mi_version m v
  | IMode x => set_mi_mode m x
  | IHub n => set_mi_hubs_normal m n
  | IHubs n r o => set_mi_hubs_op (set_mi_hubs_reg (set_mi_hubs_normal m n) r) o
  | ISlots n => set_mi_slots m n
  | IExtra k v => set_mi_extra m (map_set k v m.(mi_extra))
  end.
Definition apply_client (cl : bytes) (i : item) : bytes := match i with IClient c => c | _ => cl end.

Lemma colon_cut c v : c <> ":"%byte -> cut ":" (c :: B ":" ++ v) = Some ([c], v).
Proof. intros N. change (c :: B ":" ++ v) with ([c] ++ ":"%byte :: v). apply cut_app. intros [E|[]]. now apply N. Qed.
Lemma letter_colon c x : letter c = x -> x <> ":"%byte -> c <> ":"%byte.
Proof. intros <- N ->. now apply N. Qed.
Lemma fields_step m cl fst f fs m1 : f <> [] ->
  (exists k v, k <> [] /\ cut ":" f = Some (k, v) /\ tag_value m k v = (m1, Ok tt)) -> tag_fields m cl fst (f :: fs) = tag_fields m1 cl false fs.
Proof.
  intros N (k & v & Nk & C & T). destruct f as [|c f]; [contradiction|]. cbn [tag_fields]. rewrite C. destruct k as [|k0 k]; [contradiction|]. now rewrite T.
Qed.

Lemma hubs_pieces s1 s2 s3 : ~ In "/"%byte s1 -> ~ In "/"%byte s2 -> ~ In "/"%byte s3 ->
  contains_byte "/" (s1 ++ B "/" ++ s2 ++ B "/" ++ s3) = true /\ split_byte "/" (s1 ++ B "/" ++ s2 ++ B "/" ++ s3) = [s1; s2; s3].
Proof.
  intros N1 N2 N3. split; [apply contains_byte_spec, in_app_iff; right; now left|].
  change (s1 ++ B "/" ++ s2 ++ B "/" ++ s3) with (s1 ++ "/"%byte :: s2 ++ "/"%byte :: s3). rewrite !split_byte_app by assumption. now rewrite split_byte_notin.
Qed.

Lemma item_step fst f i : item_read fst f i -> forall m cl fs, tag_fields m cl fst (f :: fs) = tag_fields (apply_item m i) (apply_client cl i) false fs.
Proof.
  intros [fst'|c N1 N2|fst' c v L|fst' c x L|fst' c v L N|fst' c L|fst' c s n L N1 N2 H|fst' c s1 s2 s3 n r o L N1 N2 N3 H1 H2 H3|fst' c s n L H|fst' c v N1 N2|fst' k v L N] m cl fs.
  - reflexivity.
  - destruct c as [|c0 c]; [contradiction|]. cbn [tag_fields]. apply cut_none in N2. rewrite N2. reflexivity.
  - apply fields_step; [discriminate|]. exists [c], v. split; [discriminate|]. split; [apply colon_cut; now apply (letter_colon c "V")|]. unfold tag_value. rewrite letter_key, L. reflexivity.
  - apply fields_step; [discriminate|]. exists [c], [x]. split; [discriminate|]. split; [apply colon_cut; now apply (letter_colon c "M")|]. unfold tag_value. rewrite letter_key, L. reflexivity.
  - apply fields_step; [discriminate|]. exists [c], v. split; [discriminate|]. split; [apply colon_cut; now apply (letter_colon c "M")|]. unfold tag_value. rewrite letter_key, L.
    destruct v as [|? [|]]; [reflexivity|cbn in N; lia|reflexivity].
  - apply fields_step; [discriminate|]. exists [c], []. split; [discriminate|]. split; [apply (colon_cut c []); now apply (letter_colon c "H")|]. unfold tag_value. rewrite letter_key, L. reflexivity.
  - apply fields_step; [discriminate|]. exists [c], s. split; [discriminate|]. split; [apply colon_cut; now apply (letter_colon c "H")|]. unfold tag_value. rewrite letter_key, L.
    change (beq "H" "V") with false. change (beq "H" "M") with false. change (beq "H" "H") with true. cbv iota zeta. destruct s as [|c0 s]; [contradiction|].
    apply contains_byte_false in N2. rewrite N2. repeat back_step. reflexivity.
  - apply fields_step; [discriminate|]. exists [c], (s1 ++ B "/" ++ s2 ++ B "/" ++ s3). split; [discriminate|]. split; [apply colon_cut; now apply (letter_colon c "H")|]. unfold tag_value. rewrite letter_key, L.
    change (beq "H" "V") with false. change (beq "H" "M") with false. change (beq "H" "H") with true. cbv iota zeta.
    destruct (hubs_pieces s1 s2 s3 N1 N2 N3) as [C Sp]. destruct (s1 ++ B "/" ++ s2 ++ B "/" ++ s3) as [|c0 y] eqn:E; [destruct s1; discriminate|].
    rewrite C, Sp. repeat back_step. reflexivity.
  - apply fields_step; [discriminate|]. exists [c], s. split; [discriminate|]. split; [apply colon_cut; now apply (letter_colon c "S")|]. unfold tag_value. rewrite letter_key, L.
    change (beq "S" "V") with false. change (beq "S" "M") with false. change (beq "S" "H") with false. change (beq "S" "S") with true. cbv iota zeta. repeat back_step. reflexivity.
  - apply fields_step; [discriminate|]. exists [c], v. split; [discriminate|]. split; [now apply colon_cut|]. unfold tag_value. rewrite letter_key. cbv zeta.
    unfold std_letter in N2. cbn in N2. destruct (beq_spec (letter c) "V") as [E|_]; [exfalso; apply N2; auto|]. destruct (beq_spec (letter c) "M") as [E|_]; [exfalso; apply N2; auto|].
    destruct (beq_spec (letter c) "H") as [E|_]; [exfalso; apply N2; auto|]. destruct (beq_spec (letter c) "S") as [E|_]; [exfalso; apply N2; auto|]. now rewrite byte_string_utf8.
  - apply fields_step; [destruct k; discriminate|]. exists k, v. split; [intros ->; cbn in L; lia|]. split; [change (k ++ B ":" ++ v) with (k ++ ":"%byte :: v); now apply cut_app|].
    destruct k as [|k0 [|k1 k]]; [cbn in L; lia..|]. reflexivity.
Qed.

Lemma tag_value_item fst c v m m1 : c <> ":"%byte -> tag_value m [c] v = (m1, Ok tt) -> exists i, item_read fst (c :: B ":" ++ v) i.
Proof.
  intros Nc. unfold tag_value. rewrite letter_key. cbv zeta. destruct (beq_spec (letter c) "V") as [E|NV]; [eexists; now apply ir_version|].
  destruct (beq_spec (letter c) "M") as [E|NM]; [intros _; destruct v as [|x [|y v]]; [exists (IMode x00); apply ir_no_mode; [exact E|cbn; lia]|exists (IMode x); now apply ir_mode|exists (IMode x00); apply ir_no_mode; [exact E|cbn; lia]]|].
  destruct (beq_spec (letter c) "H") as [E|NH].
  { destruct v as [|v0 v]; [intros _; exists (IHub 1); now apply ir_hub_empty|]. remember (v0 :: v) as w eqn:Ew. assert (Nw : w <> []) by (subst; discriminate). clear Ew v0 v.
    destruct (contains_byte "/" w) eqn:C.
    - intros H. pose proof (split_byte_pieces "/" w) as P. pose proof (join_split_byte "/" w) as J. destruct (split_byte "/" w) as [|s1 [|s2 [|s3 [|? ?]]]]; try discriminate.
      cbn in J. rewrite <- J. head_step H. head_step H. head_step H. eexists. apply ir_hubs; try eassumption; apply P; cbn; auto.
    - intros H. head_step H. apply contains_byte_false in C. eexists. apply ir_hub; eassumption. }
  destruct (beq_spec (letter c) "S") as [E|NS]; [intros H; head_step H; eexists; apply ir_slots; [exact E|eassumption]|].
  intros _. eexists. apply ir_letter; [exact Nc|]. unfold std_letter. cbn. intuition congruence.
Qed.
Lemma fields_item m cl fst f fs x : tag_fields m cl fst (f :: fs) = (x, Ok tt) -> exists i, item_read fst f i.
Proof.
  intros H. destruct f as [|c f]; [exists INothing; constructor|]. remember (c :: f) as w eqn:Ew. assert (Nw : w <> []) by (subst; discriminate).
  cbn [tag_fields] in H. rewrite Ew in H. rewrite <- Ew in H. clear Ew c f.
  destruct (cut ":" w) as [[k v]|] eqn:C.
  - apply cut_spec in C as [-> N]. destruct k as [|c [|c' k]]; [discriminate| |].
    + destruct (tag_value m [c] v) as [m1 [[]|e|]] eqn:T; try discriminate. apply (tag_value_item fst _ _ _ _) in T; [exact T|]. intros ->. apply N. now left.
    + exists (IExtra (c :: c' :: k) v). change ((c :: c' :: k) ++ ":"%byte :: v) with ((c :: c' :: k) ++ B ":" ++ v). apply ir_key; [cbn; lia|exact N].
  - apply cut_none in C. destruct fst; [|discriminate]. exists (IClient w). now apply ir_client.
Qed.

Lemma fields_iff fs : forall m cl fst m' cl', tag_fields m cl fst fs = (m', cl', Ok tt) <->
  exists is, items_read fst fs is /\ m' = fold_left apply_item is m /\ cl' = fold_left apply_client is cl.
Proof.
  induction fs as [|f fs IH]; intros m cl fst m' cl'.
  - split; [intros [= <- <-]; exists []; split; [constructor|auto]|]. intros (is & I & -> & ->). inversion I. reflexivity.
  - split.
    + intros H. destruct (fields_item _ _ _ _ _ _ H) as [i I]. rewrite (item_step _ _ _ I) in H. apply IH in H as (is & Is & -> & ->). exists (i :: is). split; [now constructor|auto].
    + intros (is & I & -> & ->). inversion I as [|? ? i ? is' Ii Is]; subst. rewrite (item_step _ _ _ Ii). apply IH. exists is'. auto.
Qed.

Definition set_extra_item (e : list (bytes * bytes)) (i : item) := match i with IExtra k v => map_set k v e | _ => e end.
Lemma fold_items is : forall m, fold_left apply_item is m =
  mk_myinfo (mi_name m) (mi_desc m) (mi_client m) (last_of sel_version (mi_version m) is) (last_of sel_mode (mi_mode m) is)
    (last_of sel_normal (mi_hubs_normal m) is) (last_of sel_reg (mi_hubs_reg m) is) (last_of sel_op (mi_hubs_op m) is) (last_of sel_slots (mi_slots m) is)
    (fold_left set_extra_item is (mi_extra m)) (mi_conn m) (mi_flag m) (mi_email m) (mi_share m).
Proof.
  unfold last_of. induction is as [|i is IH]; intros m; [destruct m; reflexivity|]. cbn [fold_left]. rewrite IH. destruct i; reflexivity.
Qed.
Lemma fold_client is : forall cl, fold_left apply_client is cl = last_of sel_client cl is.
Proof. unfold last_of. induction is as [|i is IH]; intros cl; [reflexivity|]. cbn [fold_left]. rewrite IH. destruct i; reflexivity. Qed.

Lemma map_set_keys k v l x : In x (map fst (map_set k v l)) <-> x = k \/ In x (map fst l).
Proof.
  induction l as [|[k' v'] l IH]; cbn; [intuition|]. destruct (bytes_eqb_spec k k') as [->|N]; cbn; [intuition|]. rewrite IH. intuition.
Qed.
Lemma map_set_nodup k v l : NoDup (map fst l) -> NoDup (map fst (map_set k v l)).
Proof.
  induction l as [|[k' v'] l IH]; cbn; intros H; [constructor; [intros []|constructor]|]. inversion H as [|? ? N D]; subst. destruct (bytes_eqb_spec k k') as [->|Nk]; cbn; constructor; auto.
  rewrite map_set_keys. intros [E|I]; [now apply Nk|contradiction].
Qed.
Lemma map_set_in k v l k' v' : NoDup (map fst l) -> (In (k', v') (map_set k v l) <-> k' = k /\ v' = v \/ k' <> k /\ In (k', v') l).
Proof.
  induction l as [|[a b] l IH]; cbn; intros H; [split; [intros [[= <- <-]|[]]; auto|intros [[-> ->]|[_ []]]; auto]|]. inversion H as [|? ? N D]; subst.
  assert (K : forall y, ~ In (a, y) l) by (intros y I; apply N; apply in_map_iff; exists (a, y); auto).
  destruct (bytes_eqb_spec k a) as [->|Nk]; cbn.
  - split.
    + intros [[= <- <-]|I]; [auto|]. right. split; [intros ->; now apply K in I|auto].
    + intros [[-> ->]|[Na [[= <- <-]|I]]]; [auto|now destruct Na|auto].
  - rewrite IH by exact D. split.
    + intros [[= <- <-]|[[-> ->]|[N' I]]]; [right; split; [congruence|auto]|auto|auto].
    + intros [[-> ->]|[N' [[= <- <-]|I]]]; auto.
Qed.
Lemma fold_extra is : forall e, NoDup (map fst e) -> NoDup (map fst (fold_left set_extra_item is e)) /\
  forall k v o, (forall x, o = Some x <-> In (k, x) e) -> (In (k, v) (fold_left set_extra_item is e) <-> last_of (sel_extra k) o is = Some v).
Proof.
  unfold last_of. induction is as [|i is IH]; intros e D; cbn [fold_left].
  - split; [exact D|]. intros k v o H. now rewrite H.
  - destruct (IH (set_extra_item e i)) as [D' H']; [destruct i; cbn [set_extra_item]; auto using map_set_nodup|]. split; [exact D'|]. intros k v o H.
    apply H'. intros x. destruct i; cbn [set_extra_item sel_extra]; try apply H. rewrite map_set_in by exact D. destruct (bytes_eqb_spec k k0) as [->|N].
    + split; [intros [= <-]; auto|]. intros [[_ ->]|[N _]]; [reflexivity|now destruct N].
    + rewrite H. intuition.
Qed.
Lemma extras_fold is : extras_read is (fold_left set_extra_item is []).
Proof.
  destruct (fold_extra is [] (NoDup_nil _)) as [D H]. split; [exact D|]. intros k v. apply H. intros x. split; [discriminate|intros []].
Qed.
Lemma extras_unique is e e' : extras_read is e -> extras_read is e' -> Permutation e e'.
Proof.
  intros [D H] [D' H']. apply NoDup_Permutation; [now apply NoDup_map_inv in D|now apply NoDup_map_inv in D'|]. intros [k v]. now rewrite H, H'.
Qed.

Lemma tag_split_iff tag c t : tag_split tag c t <->
  (match cut_seq (B " V:") tag with
   | Some (c, t) => (c, B "V:" ++ t)
   | None => match cut_seq (B " v:") tag with Some (c, t) => (c, B "v:" ++ t) | None => ([], tag) end end) = (c, t).
Proof.
  split.
  - intros [tag' c' t' F|tag' c' t' N F|tag' N1 N2].
    + repeat back_step. reflexivity.
    + apply not_substring_cut in N. rewrite N. repeat back_step. reflexivity.
    + apply not_substring_cut in N1, N2. now rewrite N1, N2.
  - destruct (cut_seq (B " V:") tag) as [[c1 t1]|] eqn:C1; [intros [= <- <-]; apply first_cut_seq in C1; now apply ts_upper|]. apply not_substring_cut in C1.
    destruct (cut_seq (B " v:") tag) as [[c1 t1]|] eqn:C2; [intros [= <- <-]; apply first_cut_seq in C2; now apply ts_lower|]. apply not_substring_cut in C2. intros [= <- <-]. now apply ts_none.
Qed.
Lemma closing_tag tag tag' : without_suffix (B ">") tag tag' <-> tag' = if last_is ">" tag then drop_last tag else tag.
Proof.
  destruct (last_is ">" tag) eqn:L.
  - assert (E := last_is_true _ _ L). split.
    + intros [->|[N _]]; [change (B ">") with [">"%byte]; now rewrite drop_last_app|]. exfalso. now apply (N (drop_last tag)).
    + intros ->. left. exact E.
  - apply last_is_false in L. split.
    + intros [->|[_ ->]]; [|reflexivity]. exfalso. apply L. now exists tag'.
    + intros ->. right. split; [|reflexivity]. intros a E. apply L. now exists a.
Qed.

(** The part before the first dollar sign. *)
Lemma desc_iff dec m f0 m' hastag : mi_client m = [] -> mi_version m = [] -> mi_hubs_normal m = 0%Z -> mi_hubs_reg m = 0%Z -> mi_hubs_op m = 0%Z -> mi_slots m = 0%Z -> mi_extra m = [] ->
  (myinfo_desc dec m f0 = (m', Ok hastag) <->
   exists desc client version mode hn hr ho slots extra,
    m' = mk_myinfo (mi_name m) desc client version mode hn hr ho slots extra (mi_conn m) (mi_flag m) (mi_email m) (mi_share m) /\
    (hastag = false /\ ~ In "<"%byte f0 /\ str_read dec f0 desc /\ mode = x00 /\ client = [] /\ version = [] /\ (hn, hr, ho, slots) = (0, 0, 0, 0)%Z /\ extra = [] \/
     hastag = true /\ exists d tag tag' c t fs is, f0 = d ++ B "<" ++ tag /\ ~ In "<"%byte tag /\ tag <> [] /\ str_read dec d desc /\
       without_suffix (B ">") tag tag' /\ tag_split tag' c t /\ split_on (B ",") t fs /\ items_read true fs is /\
       client = last_of sel_client c is /\ version = last_of sel_version [] is /\ mode = last_of sel_mode x00 is /\
       hn = last_of sel_normal 0%Z is /\ hr = last_of sel_reg 0%Z is /\ ho = last_of sel_op 0%Z is /\
       slots = last_of sel_slots 0%Z is /\ extra = fold_left set_extra_item is [])).
Proof.
  intros Z1 Z2 Z3 Z4 Z5 Z6 Z7. unfold myinfo_desc. cbv zeta. destruct (last_cut "<" f0) as [[d tag]|] eqn:C.
  - apply last_cut_spec in C as [E N]. split.
    + intros H. destruct tag as [|t0 tag0]; [discriminate|]. remember (t0 :: tag0) as tag eqn:Et. assert (Nt : tag <> []) by (subst; discriminate). clear Et t0 tag0.
      unfold unmarshal_tag in H. destruct (match cut_seq (B " V:") _ with Some _ => _ | None => _ end) as [c t] eqn:Ts. apply tag_split_iff in Ts.
      destruct (tag_fields _ c true (split_byte "," t)) as [[m1 cl] [[]|e|]] eqn:Tf; try discriminate. apply fields_iff in Tf as (is & Is & -> & ->). rewrite fold_items, fold_client in H.
      head_step H. injection H as <- <-. unfold set_mi_desc, set_mi_client, set_mi_extra, set_mi_mode. cbn. rewrite Z2, Z3, Z4, Z5, Z6.
      do 9 eexists. split; [reflexivity|]. right. split; [reflexivity|]. exists d, tag, (if last_is ">" tag then drop_last tag else tag), c, t, (split_byte "," t), is.
      split; [exact E|]. split; [exact N|]. split; [exact Nt|]. split; [exact E0|]. split; [now apply closing_tag|]. split; [exact Ts|]. split; [now apply (split_on_byte ",")|]. split; [exact Is|]. repeat split; reflexivity.
    + intros (desc & client & version & mode & hn & hr & ho & slots & extra & -> & [(_ & No & _)|(-> & d' & tag' & tag2 & c & t & fs & is & Ef & Nl & Nt & Sd & W & Ts & Sp & Is & -> & -> & -> & -> & -> & -> & -> & ->)]).
      * exfalso. apply No. rewrite E. apply in_app_iff. right. now left.
      * assert (X : last_cut "<" f0 = Some (d, tag)) by now apply last_cut_spec. assert (Y : last_cut "<" f0 = Some (d', tag')) by now apply last_cut_spec. rewrite X in Y. injection Y as <- <-.
        apply closing_tag in W. destruct tag as [|t0 tag]; [contradiction|]. rewrite <- W. unfold unmarshal_tag. apply tag_split_iff in Ts. rewrite Ts.
        rewrite <- (proj1 (split_on_byte "," t fs) Sp). rewrite (proj2 (fields_iff fs (set_mi_extra (set_mi_mode m x00) []) c true _ _) (ex_intro _ is (conj Is (conj eq_refl eq_refl)))).
        rewrite fold_items, fold_client. cbn. repeat back_step. rewrite Z2, Z3, Z4, Z5, Z6. reflexivity.
  - apply last_cut_none in C. split.
    + intros H. head_step H. injection H as <- <-. unfold set_mi_desc, set_mi_mode. cbn. rewrite Z1, Z2, Z3, Z4, Z5, Z6, Z7. do 9 eexists. split; [reflexivity|]. left. split; [reflexivity|]. split; [exact C|]. split; [exact E|]. auto.
    + intros (desc & client & version & mode & hn & hr & ho & slots & extra & -> & [(-> & _ & Sd & -> & -> & -> & [= -> -> -> ->] & ->)|(-> & d' & tag' & tag2 & c & t & fs & is & Ef & _)]).
      * repeat back_step. unfold set_mi_desc, set_mi_mode. cbn. now rewrite Z1, Z2, Z3, Z4, Z5, Z6, Z7.
      * exfalso. apply C. rewrite Ef. apply in_app_iff. right. now left.
Qed.
Lemma end_iff dec m f3 f4 m' : mi_share m = 0%N -> (myinfo_end dec m f3 f4 = (m', Ok tt) <->
  exists email share, str_read dec f3 email /\ (uint_read f4 share \/ (forall k, ~ uint_read f4 k) /\ share = 0%N) /\ m' = set_mi_share (set_mi_email m email) share).
Proof.
  intros Z. assert (U0 : forall k, ~ uint_read [] k) by (intros k U; apply uint_iff in U; vm_compute in U; discriminate).
  unfold myinfo_end. split.
  - intros H. head_step H. cbv zeta in H. destruct f4 as [|c f4].
    + injection H as <-. exists a, 0%N. split; [exact E|]. split; [auto|]. unfold set_mi_share, set_mi_email. cbn. now rewrite Z.
    + injection H as <-. exists a, (match parse_uint_trim (c :: f4) with Ok n => n | _ => 0%N end). split; [exact E|]. split; [|reflexivity].
      destruct (parse_uint_trim (c :: f4)) as [n|e|] eqn:U; [left; now apply uint_iff|right; split; [|reflexivity]; intros k U'; apply uint_iff in U'; congruence..].
  - intros (email & share & He & Hs & ->). repeat back_step. destruct f4 as [|c f4].
    + destruct Hs as [U|[_ ->]]; [now apply U0 in U|]. unfold set_mi_share, set_mi_email. cbn. now rewrite Z.
    + destruct Hs as [U|[U ->]]; [now rewrite (proj2 (uint_iff _ _) U)|]. destruct (parse_uint_trim (c :: f4)) as [n|e|] eqn:P; [|reflexivity..]. exfalso. apply (U n). now apply uint_iff.
Qed.
Lemma rest_iff dec m hastag f1 f2 f3 f4 m' : mi_share m = 0%N -> mi_flag m = x00 -> mi_conn m = [] -> (myinfo_rest dec m hastag f1 f2 f3 f4 = (m', Ok tt) <->
  exists md conn flag email share, f1 = [md] /\ (f2 = [] /\ flag = x00 /\ conn = [] \/ exists c, f2 = c ++ [flag] /\ str_read dec c conn) /\
    str_read dec f3 email /\ (uint_read f4 share \/ (forall k, ~ uint_read f4 k) /\ share = 0%N) /\
    m' = mk_myinfo (mi_name m) (mi_desc m) (mi_client m) (mi_version m) (if hastag then mi_mode m else if beq md " " then x00 else md)
      (mi_hubs_normal m) (mi_hubs_reg m) (mi_hubs_op m) (mi_slots m) (mi_extra m) conn flag email share).
Proof.
  intros Z1 Z2 Z3. unfold myinfo_rest. split.
  - intros H. destruct f1 as [|md [|]]; try discriminate. cbv zeta in H. exists md. destruct f2 as [|fl c _] using rev_ind.
    + cbn [rev] in H. apply end_iff in H as (email & share & He & Hs & ->); [|destruct hastag; exact Z1]. exists [], x00, email, share. split; [reflexivity|]. split; [auto|]. split; [exact He|]. split; [exact Hs|].
      destruct hastag; unfold set_mi_share, set_mi_email, set_mi_mode; cbn; now rewrite Z2, Z3.
    + rewrite rev_app_distr in H. cbn [rev app] in H. rewrite drop_last_app in H. head_step H. apply end_iff in H as (email & share & He & Hs & ->); [|destruct hastag; exact Z1].
      exists a, fl, email, share. split; [reflexivity|]. split; [right; eauto|]. split; [exact He|]. split; [exact Hs|]. destruct hastag; reflexivity.
  - intros (md & conn & flag & email & share & -> & Hc & He & Hs & ->). destruct Hc as [(-> & -> & ->)|(c & -> & Hc)].
    + cbn [rev]. apply end_iff; [destruct hastag; exact Z1|]. exists email, share. split; [exact He|]. split; [exact Hs|]. destruct hastag; unfold set_mi_share, set_mi_email, set_mi_mode; cbn; now rewrite Z2, Z3.
    + rewrite rev_app_distr. cbn [rev app]. rewrite drop_last_app. repeat back_step. apply end_iff; [destruct hastag; exact Z1|]. exists email, share. split; [exact He|]. split; [exact Hs|]. destruct hastag; reflexivity.
Qed.

Lemma six_fields data f0 f1 f2 f3 f4 f5 : split_byte "$" data = [f0; f1; f2; f3; f4; f5] <->
  data = sep_by (B "$") [f0; f1; f2; f3; f4; f5] /\ Forall (fun f => ~ In "$"%byte f) [f0; f1; f2; f3; f4; f5].
Proof.
  split.
  - intros E. pose proof (join_split_byte "$" data) as J. pose proof (split_byte_pieces "$" data) as P. rewrite E in J, P. split; [symmetry; exact J|]. apply Forall_forall. exact P.
  - intros [-> F]. rewrite Forall_forall in F. apply (split_byte_join "$" [f0; f1; f2; f3; f4; f5]); [discriminate|exact F].
Qed.
Lemma myinfo_decode_iff dec data m : myinfo_unmarshal dec myinfo0 data = (m, Ok tt) <->
  exists n name r f0 f1 f2 f3 f4 f5 m1 hastag, data = B "$ALL " ++ n ++ B " " ++ r /\ ~ In " "%byte n /\ name_read dec n name /\
    split_byte "$" r = [f0; f1; f2; f3; f4; f5] /\ myinfo_desc dec (set_mi_name myinfo0 name) f0 = (m1, Ok hastag) /\ myinfo_rest dec m1 hastag f1 f2 f3 f4 = (m, Ok tt).
Proof.
  unfold myinfo_unmarshal. split.
  - intros H. destruct (has_prefix (B "$ALL ") data) eqn:P; [|discriminate]. apply has_prefix_spec in P as [d ->]. change (skipn 5 (B "$ALL " ++ d)) with d in H.
    destruct (cut " " d) as [[n r]|] eqn:C; [|discriminate]. apply cut_spec in C as [-> N]. head_step H. cbv zeta in H.
    destruct (split_byte "$" r) as [|f0 [|f1 [|f2 [|f3 [|f4 [|f5 [|]]]]]]] eqn:Sp; try discriminate. destruct (myinfo_desc _ _ _) as [m1 [h|e|]] eqn:D; try discriminate.
    exists n, a, r, f0, f1, f2, f3, f4, f5, m1, h. auto 10.
  - intros (n & name & r & f0 & f1 & f2 & f3 & f4 & f5 & m1 & h & -> & N & Hn & Sp & D & R). rewrite has_prefix_app. change (skipn 5 (B "$ALL " ++ n ++ B " " ++ r)) with (n ++ " "%byte :: r).
    rewrite cut_app by exact N. repeat back_step. rewrite Sp, D. exact R.
Qed.

Lemma myinfo_reads dec data m : myinfo_unmarshal dec myinfo0 data = (m, Ok tt) -> myinfo_read dec data m.
Proof.
  intros H. apply myinfo_decode_iff in H as (n & name & r & f0 & f1 & f2 & f3 & f4 & f5 & m1 & h & -> & N & Hn & Sp & D & R).
  apply six_fields in Sp as [-> F]. apply desc_iff in D; [|reflexivity..]. destruct D as (desc & client & version & mode & hn & hr & ho & slots & extra & -> & D).
  apply rest_iff in R; [|reflexivity..]. destruct R as (md & conn & flag & email & share & -> & Hc & He & Hs & ->). cbn.
  apply mir; [exact N|exact Hn|exact F| |exact Hc|exact He|exact Hs].
  destruct D as [(-> & No & Sd & -> & -> & -> & [= -> -> -> ->] & ->)|(-> & d & tag & tag' & c & t & fs & is & Ef & Nl & Nt & Sd & W & Ts & Sp & Is & -> & -> & -> & -> & -> & -> & -> & ->)].
  - left. auto 10.
  - right. exists d, tag, tag', c, t, fs, is. do 15 (split; [first [assumption|reflexivity]|]). apply extras_fold.
Qed.
Lemma myinfo_reads_back dec data m : myinfo_read dec data m -> exists m', myinfo_unmarshal dec myinfo0 data = (m', Ok tt) /\ myinfo_alike m' m.
Proof.
  intros [n f0 md f2 f3 f4 f5 name desc client version mode hn hr ho slots extra conn flag email share N Hn F D Hc He Hs].
  destruct D as [(No & Sd & -> & -> & -> & [= -> -> -> ->] & ->)|(d & tag & tag' & c & t & fs & is & Ef & Nl & Nt & Sd & W & Ts & Sp & Is & -> & -> & -> & -> & -> & -> & -> & Hx)].
  - eexists. split.
    + apply myinfo_decode_iff. exists n, name, (sep_by (B "$") [f0; [md]; f2; f3; f4; f5]), f0, [md], f2, f3, f4, f5. do 2 eexists.
      split; [reflexivity|]. split; [exact N|]. split; [exact Hn|]. split; [now apply six_fields|]. split.
      * apply desc_iff; [reflexivity..|]. do 9 eexists. split; [reflexivity|]. left. split; [reflexivity|]. split; [exact No|]. split; [exact Sd|]. auto.
      * apply rest_iff; [reflexivity..|]. exists md, conn, flag, email, share. cbn. split; [reflexivity|]. split; [exact Hc|]. split; [exact He|]. split; [exact Hs|]. reflexivity.
    + split; reflexivity.
  - eexists. split.
    + apply myinfo_decode_iff. exists n, name, (sep_by (B "$") [f0; [md]; f2; f3; f4; f5]), f0, [md], f2, f3, f4, f5. do 2 eexists.
      split; [reflexivity|]. split; [exact N|]. split; [exact Hn|]. split; [now apply six_fields|]. split.
      * apply desc_iff; [reflexivity..|]. do 9 eexists. split; [reflexivity|]. right. split; [reflexivity|]. exists d, tag, tag', c, t, fs, is. do 8 (split; [eassumption|]). repeat split; reflexivity.
      * apply rest_iff; [reflexivity..|]. exists md, conn, flag, email, share. cbn. split; [reflexivity|]. split; [exact Hc|]. split; [exact He|]. split; [exact Hs|]. reflexivity.
    + split; [reflexivity|]. cbn. apply (extras_unique is); [apply extras_fold|exact Hx].
Qed.
