(** Proofs for SpecNmdcUnknown.v: what another decoder can read and this one cannot is reported. *)
From Verif Require Import Base Num Utf8 Tiger NmdcText NmdcChat NmdcHub NmdcFiles NmdcUser NmdcMessage SpecText SpecHash SpecNmdc SpecRead SpecFrame SpecReuse NmdcReuseFacts SpecNmdcUnknown.

Section Asked.
Variables dec d : codec.
Hypothesis total : forall u, exists t, run_codec dec u = Ok t.

(** Success with [d] leaves success or a report with [dec]. *)
Definition granted {X} (r r' : res X) : Prop := forall v, r' = Ok v -> (exists v', r = Ok v') \/ exists t, r = Err (EUnknownEnc t).
Lemma granted_same {X} (r : res X) : granted r r.
Proof. intros v ->. left. now exists v. Qed.
Lemma text_granted raw : granted (text_unmarshal dec raw) (text_unmarshal d raw).
Proof.
  intros v _. unfold text_unmarshal. destruct (total (unescape_bytes raw)) as [t E]. rewrite E. cbn [bind]. destruct (utf8_valid t); eauto.
Qed.
Lemma str_granted raw : granted (string_unmarshal dec raw) (string_unmarshal d raw).
Proof. unfold string_unmarshal. destruct (contains_byte x00 raw); [apply granted_same|apply text_granted]. Qed.
Lemma name_granted raw : granted (name_unmarshal dec raw) (name_unmarshal d raw).
Proof.
  unfold name_unmarshal. destruct (_ <? _); [apply granted_same|]. destruct (existsb _ _); [apply granted_same|apply text_granted].
Qed.
Lemma names_granted l : granted (names_sub dec l) (names_sub d l).
Proof.
  induction l as [|b l IH]; [apply granted_same|]. cbn [names_sub]. intros v H.
  destruct (name_unmarshal d b) as [x|e|] eqn:E; [|discriminate|discriminate]. cbn [bind] in H. destruct (names_sub d l) as [xs|e|] eqn:F; [|discriminate|discriminate].
  destruct (name_granted b x E) as [[y ->]|[t ->]]; cbn [bind]; [|eauto]. destruct (IH xs eq_refl) as [[ys ->]|[t ->]]; cbn [bind]; eauto.
Qed.

(** Both decodings in step. *)
Ltac pick r r' G :=
  let E := fresh "E" in destruct r' eqn:E;
  [let y := fresh "y" in let t := fresh "t" in destruct (G _ E) as [[y ->]|[t ->]]; [|intros ? _; right; eexists; reflexivity]|intros ? ?; discriminate|intros ? ?; discriminate].
Ltac twin := repeat (cbv zeta; cbn [bind snd]; match goal with
  | |- granted (snd (match name_unmarshal dec ?p with _ => _ end)) _ => pick (name_unmarshal dec p) (name_unmarshal d p) (name_granted p)
  | |- granted (snd (match string_unmarshal dec ?p with _ => _ end)) _ => pick (string_unmarshal dec p) (string_unmarshal d p) (str_granted p)
  | |- granted (snd (match names_sub dec ?p with _ => _ end)) _ => pick (names_sub dec p) (names_sub d p) (names_granted p)
  | |- granted (snd (match ?r with Ok _ => _ | Err _ => _ | Panic => _ end)) (snd (match ?r with Ok _ => _ | Err _ => _ | Panic => _ end)) => destruct r
  | |- granted (snd (match ?r with Some _ => _ | None => _ end)) (snd (match ?r with Some _ => _ | None => _ end)) => destruct r as [[? ?]|]
  | |- granted (snd (if ?b then _ else _)) (snd (if ?b then _ else _)) => destruct b
  | |- granted ?r ?r => apply granted_same
  end).

Lemma fields_granted n l : forall i m1 m2, granted (snd (hubinfo_fields dec n i m1 l)) (snd (hubinfo_fields d n i m2 l)).
Proof.
  induction l as [|f l IH]; intros i m1 m2; cbn [hubinfo_fields]; [apply granted_same|].
  do 11 (destruct i as [|i]; [cbn [hubinfo_field];
    repeat match goal with
    | |- context [string_unmarshal dec ?p] => pick (string_unmarshal dec p) (string_unmarshal d p) (str_granted p)
    | |- context [match atoi_trim ?x with Ok _ => _ | Err _ => _ | Panic => _ end] => destruct (atoi_trim x); try apply granted_same
    | |- context [match last_cut ?a ?b with _ => _ end] => destruct (last_cut a b) as [[? ?]|]
    end; apply IH|]).
  cbn [hubinfo_field]. apply IH.
Qed.
Lemma userip_granted l : forall a1 a2, granted (snd (userip_sub dec l a1)) (snd (userip_sub d l a2)).
Proof.
  induction l as [|s l IH]; intros a1 a2; cbn [userip_sub]; [apply granted_same|].
  destruct (match last_cut " " s with Some (n, ip) => (n, ip) | None => (s, []) end) as [n ip]. twin. apply IH.
Qed.
Lemma what_granted m1 m2 f : se_dtype m1 = se_dtype m2 -> granted (snd (search_what dec m1 f)) (snd (search_what d m2 f)).
Proof. intros E. unfold search_what. rewrite E. twin. destruct (new_tth _); twin. Qed.
Lemma tail_granted m1 m2 x : granted (snd (sr_tail dec m1 x)) (snd (sr_tail d m2 x)).
Proof. unfold sr_tail. twin. all: match goal with |- context [match ?x with [] => _ | _ => _ end] => destruct x as [|c [|? ?]] end; twin. Qed.
Lemma hub_granted m1 m2 x : granted (snd (sr_hub dec m1 x)) (snd (sr_hub d m2 x)).
Proof.
  unfold sr_hub. twin; try (destruct (new_tth _) as [t r]; twin); apply tail_granted.
Qed.
Lemma slots_granted m1 m2 p s x : granted (snd (sr_slots dec m1 p s x)) (snd (sr_slots d m2 p s x)).
Proof. unfold sr_slots. twin. all: apply hub_granted. Qed.
Lemma desc_granted m1 m2 f : granted (snd (myinfo_desc dec m1 f)) (snd (myinfo_desc d m2 f)).
Proof.
  unfold myinfo_desc. destruct (last_cut "<" f) as [[ds tg]|]; [|twin].
  destruct tg as [|t0 tg]; [apply granted_same|]. unfold unmarshal_tag.
  match goal with |- context [match cut_seq (B " V:") ?t with _ => _ end] => generalize t end. intros t.
  destruct (match cut_seq (B " V:") t with Some (c, t0) => (c, B "V:" ++ t0) | None => match cut_seq (B " v:") t with Some (c, t0) => (c, B "v:" ++ t0) | None => ([], t) end end) as [cl tt'].
  destruct (tag_fields_snd (split_byte "," tt') (set_mi_extra (set_mi_mode m1 x00) []) (set_mi_extra (set_mi_mode m2 x00) []) cl true) as [T1 T2].
  destruct (tag_fields (set_mi_extra (set_mi_mode m1 x00) []) cl true _) as [[x1 c1] e1]. destruct (tag_fields (set_mi_extra (set_mi_mode m2 x00) []) cl true _) as [[x2 c2] e2]. cbn [fst snd] in T1, T2. subst e2 c2.
  destruct e1; twin.
Qed.
Lemma rest_granted m1 m2 h1 h2 f1 f2 f3 f4 : granted (snd (myinfo_rest dec m1 h1 f1 f2 f3 f4)) (snd (myinfo_rest d m2 h2 f1 f2 f3 f4)).
Proof. unfold myinfo_rest, myinfo_end. destruct f1 as [|md [|? ?]]; twin. destruct (rev f2); twin; destruct f4; twin. Qed.

Lemma asked o a : plain_texts o -> sized o -> granted (snd (msg_unmarshal dec o a)) (snd (msg_unmarshal d o a)).
Proof.
  intros O Sz. destruct o; cbn [plain_texts] in O; try contradiction; cbn [msg_unmarshal lift snd].
  - unfold name_msg_unmarshal. twin.
  - unfold string_msg_unmarshal. twin.
  - twin.
  - twin.
  - unfold err_unmarshal. twin.
  - unfold names_unmarshal. destruct (trim_suffix _ a); twin.
  - unfold chat_unmarshal, chat_text. destruct a as [|c a]; twin. all: match goal with |- context [let '(_, _) := ?p in _] => destruct p end; twin.
  - unfold pm_unmarshal. twin.
  - unfold mcto_unmarshal. twin.
  - unfold ctm_unmarshal. twin; repeat (match goal with |- context [let '(_, _) := if ?b then _ else _ in _] => destruct b end); twin.
  - unfold rctm_unmarshal. twin.
  - unfold direction_unmarshal. twin.
  - twin.
  - twin.
  - apply fields_granted.
  - unfold search_unmarshal. twin.
    all: unfold search_string; match goal with |- context [splitn_byte 5 "?" ?x] => destruct (splitn_byte 5 "?" x) as [|f0 [|f1 [|f2 [|f3 [|f4 [|? ?]]]]]] end; twin.
    all: unfold search_size; destruct f2 as [|c f2]; [|destruct (beq c "-"); [destruct (parse_uint_trim f2); cbn [bind]|destruct (parse_uint_trim (c :: f2)); cbn [bind]]].
    all: twin; apply what_granted; reflexivity.
  - unfold sr_unmarshal. twin.
    all: match goal with |- context [sr_scan ?x false []] => destruct (sr_scan x false []) as [[|] [[? ?]|]] end; twin; apply slots_granted.
  - unfold sa_unmarshal. destruct (skipn base32_size a) as [|c b]; twin; destruct (hash_unmarshal_base32 (sa_tth m) _) as [r1 h1]; twin.
  - unfold sp_unmarshal. destruct (skipn base32_size a) as [|c b]; twin; destruct (hash_unmarshal_base32 (sp_tth m) _) as [r1 h1]; twin.
  - unfold myinfo_unmarshal. twin.
    all: match goal with |- context [split_byte "$" ?x] => destruct (split_byte "$" x) as [|f0 [|f1 [|f2 [|f3 [|f4 [|f5 [|? ?]]]]]]] end; twin.
    all: match goal with |- context [myinfo_desc dec ?m1 ?f] => match goal with |- context [myinfo_desc d ?m2 _] => pose proof (desc_granted m1 m2 f) as D; destruct (myinfo_desc dec m1 f) as [x1 r1]; destruct (myinfo_desc d m2 f) as [x2 r2] end end.
    all: cbn [snd] in D; destruct r2 as [h2|e|]; [|intros ? ?; discriminate|intros ? ?; discriminate]; destruct (D h2 eq_refl) as [[h1 ->]|[t ->]]; [apply rest_granted|intros ? _; right; eexists; reflexivity].
  - unfold userip_unmarshal. apply userip_granted.
  - twin.
  - twin.
Qed.
End Asked.
