(** Where round trips and decoders of NMDC messages stop working: what arrives instead. *)
From Verif Require Import Base BaseFacts Num NumFacts NumSpec Utf8 Utf8Facts NmdcText NmdcTextFacts SpecText SpecHash SpecNmdc NmdcMsgFacts NmdcChat NmdcHub NmdcFiles NmdcUser NmdcMessage
  Base32 Base32Facts Tiger TigerFacts NmdcChatFacts NmdcHubFacts NmdcFilesFacts NmdcUserFacts SpecFrame NmdcFrameFacts NmdcDecodeFacts.
From Coq Require Import Lia.

(** ** Searches *)

(** The pattern that arrives: every dollar sign has become a space. *)
Lemma search_pattern_received enc dec a u who r x size typ p wp : who_wire enc dec a u who -> (r = false -> x = true) -> u64 size -> u64 typ ->
  typ <> 0%N -> typ <> 9%N -> string_text enc dec p wp -> encodes_to dec (dollars wp) (dollars p) ->
  exists t, search_marshal enc (mk_search a u r x size typ p None) = Ok t /\
    search_unmarshal dec search0 t = (mk_search a u r x size typ (map (fun c => if beq c "$" then " "%byte else c) p) None, Ok tt).
Proof.
  intros Hw Hr Us Ut Z0 T9 P E.
  exists (who ++ B " " ++ restriction r x ++ B "?" ++ format_uint size ++ B "?" ++ format_uint typ ++ B "?" ++ dollars (esc_string wp)). split.
  - unfold search_marshal; cbn [se_address se_user se_restricted se_ismax se_size se_dtype se_pattern se_tth].
    assert (W : match a with [] => do n <- name_marshal enc u; Ok (B "Hub:" ++ n) | c :: a' => Ok (c :: a') end = Ok who).
    { destruct Hw as [(A & _ & _ & -> & ->)|(-> & wu & N & _ & ->)]; [destruct a; [contradiction|reflexivity]|]. texts. steps. reflexivity. }
    rewrite W. cbn [bind]. change data_tth with 9%N. rewrite (proj2 (N.eqb_neq typ 9)) by exact T9.
    assert (M : string_marshal enc p = Ok (esc_string wp)) by (clear W; texts; assumption).
    rewrite M. cbn [bind]. rewrite (proj2 (N.eqb_neq typ 0)) by exact Z0. f_equal. f_equal. f_equal.
    destruct r; [destruct x; reflexivity|]. rewrite (Hr eq_refl). reflexivity.
  - rewrite (search_who enc dec a u) by (assumption || reflexivity). rewrite search_string_ok by assumption. unfold search_what. cbn [se_dtype set_se_dtype].
    change data_tth with 9%N. rewrite (proj2 (N.eqb_neq typ 9)) by exact T9. rewrite (pattern_received _ _ _ _ P E).
    assert (U : replace_byte "$" " " (dollars p) = map (fun c => if beq c "$" then " "%byte else c) p).
    { unfold replace_byte, dollars. rewrite map_map. apply map_ext. intros c. destruct (beq_spec c " ") as [->|N]; [reflexivity|]. reflexivity. }
    rewrite U. reflexivity.
Qed.
(** Every search for a hash that is too long by a symbol crashes the decoder. *)
Lemma search_crashes dec s h : starts_with_symbols 40 (unbroken h) -> ~ ends_in "$" h -> snd (search_unmarshal dec s (B "a F?T?0?9?TTH:" ++ h)) = Panic.
Proof.
  intros H D.
  change (B "a F?T?0?9?TTH:" ++ h) with (B "a" ++ B " " ++ (restriction false true ++ B "?" ++ format_uint 0 ++ B "?" ++ format_uint 9 ++ B "?" ++ (B "TTH:" ++ h))).
  unfold search_unmarshal. change (B " " ++ ?r) with (" "%byte :: r). rewrite cut_app by not_in. change (has_prefix (B "Hub:") (B "a")) with false. cbv iota.
  rewrite search_string_ok by (reflexivity || (unfold u64; lia)). unfold search_what. change (se_dtype (set_se_dtype _ _)) with 9%N. change (9 =? data_tth)%N with true. cbv iota.
  rewrite has_prefix_app. change (skipn 4 (B "TTH:" ++ h)) with h.
  replace (last_is "$" h) with false by (symmetry; apply last_is_false; exact D). unfold new_tth.
  pose proof (unmarshal_panics (repeat x00 hash_size) h eq_refl) as P. destruct (hash_unmarshal_base32 (repeat x00 hash_size) h) as [r t]. cbn [fst snd] in *. apply P. exact H.
Qed.

(** ** Search results *)

(** The path that arrives: the escaped texts of the components. *)
Lemma es_join ws : esc_string (join (B "\") ws) = join (B "\") (map esc_string ws).
Proof.
  induction ws as [|w ws IH]; [reflexivity|]. destruct ws as [|w' ws]; [cbn [join map]; reflexivity|].
  change (map esc_string (w :: w' :: ws)) with (esc_string w :: esc_string w' :: map esc_string ws). change (B "\") with ["\"%byte] in *. rewrite !join_cons2. unfold esc_string at 1. rewrite flat_map_app. f_equal. rewrite flat_map_app. f_equal. exact IH.
Qed.
Lemma sr_slots_raw dec m q free total data x : q <> [] -> (forall y, In y q -> ~ In "\"%byte y) -> string_unmarshal dec (join (B "\") q) = Ok x -> i64 free -> i64 total ->
  sr_slots dec m (join (B "\") q) (format_int free ++ B "/" ++ format_int total) data = sr_hub dec (set_sr_total (set_sr_free (set_sr_path m q) free) total) data.
Proof.
  intros Hp Q U I1 I2. unfold sr_slots. rewrite U.
  change (B "\") with ["\"%byte]. rewrite split_byte_join by assumption. change (B "/" ++ format_int total) with ("/"%byte :: format_int total).
  rewrite cut_app by (apply format_int_notin; [reflexivity|discriminate]). rewrite !atoi_trim_format by (apply i64_is; assumption). reflexivity.
Qed.
Lemma sr_path_received enc dec f wf path ws isdir size free total hub tth ph addr to pt :
  name_text enc dec f wf -> ~ In " "%byte wf -> path <> [] -> Forall2 (path_piece enc dec) path ws ->
  string_text enc dec (sep_by (B "\") path) (sep_by (B "\") ws) ->
  (isdir = false -> ~ slots_like (sep_by (B "\") (map (flat_map entity_string) ws))) -> (isdir = true -> size = 0%N /\ (0 <= free)%Z /\ (0 <= total)%Z) ->
  u64 size -> i64 free -> i64 total -> sr_hub_wire enc dec hub tth ph -> ~ In ")"%byte addr -> sr_to_wire enc dec to pt ->
  exists t, sr_marshal enc (mk_sr f path isdir size free total hub tth addr to) = Ok t /\
    sr_unmarshal dec sr0 t = (mk_sr f (map (flat_map entity_string) ws) isdir size free total hub tth addr to, Ok tt).
Proof.
  intros N S Hp F St NS Dr Su I1 I2 Hh Ha Ht. rewrite !sep_by_join in *. assert (EM : map (flat_map entity_string) ws = map esc_string ws) by (apply map_ext; intros; apply es_eq). rewrite EM in *. clear EM. set (q := map esc_string ws) in *.
  assert (FM : Forall2 (fun p e => string_marshal enc p = Ok e) path q).
  { unfold q. clear - F. induction F as [|p w path ws (S & _) F IH]; [constructor|]. cbn [map]. constructor; [|exact IH]. texts. exact M. }
  assert (QB : forall c, c = "\"%byte \/ c = x05 -> forall y, In y q -> ~ In c y).
  { unfold q. clear - F. intros c Hc y Hy. apply in_map_iff in Hy. destruct Hy as (w & <- & Hw). intros K.
    assert (Kw : In c w) by (apply (esc_string_in_iff c w) in K; [exact K|destruct Hc as [->| ->]; not_in|destruct Hc as [->| ->]; discriminate|destruct Hc as [->| ->]; discriminate]).
    clear K. induction F as [|p w' path ws (_ & A1 & A2) F IH]; [destruct Hw|]. destruct Hw as [->|Hw]; [|auto]. destruct Hc as [->| ->]; contradiction. }
  assert (Hq : q <> []) by (destruct FM; [contradiction|discriminate]).
  assert (U : string_unmarshal dec (join (B "\") q) = Ok (join (B "\") path)).
  { unfold q. rewrite <- es_join. clear - St. texts. assumption. }
  assert (NX : ~ In x05 (join (B "\") q)).
  { intros K. apply join_in in K. destruct K as [K|(y & Hy & K)]; [revert K; not_in|]. exact (QB x05 (or_intror eq_refl) y Hy K). }
  exists (esc_name wf ++ B " " ++ join (B "\") q ++ (if isdir then [] else [x05] ++ format_uint size) ++ B " " ++ format_int free ++ B "/" ++ format_int total ++ [x05] ++ ph ++ B " (" ++ addr ++ B ")" ++ pt).
  split.
  - unfold sr_marshal. cbn [sr_from sr_path sr_isdir sr_size sr_free sr_total sr_hubname sr_tth sr_hubaddr sr_to].
    assert (NM : name_marshal enc f = Ok (esc_name wf)) by (clear - N; texts; assumption). rewrite NM. cbn [bind].
    pose proof (marshal_path_join _ true _ _ FM) as PJ; destruct path as [|p0 path]; try contradiction;
    rewrite PJ; cbn [bind app]; rewrite (sr_hub_encodes _ _ _ _ _ Hh); cbn [bind]. 
    pose proof (sr_to_encodes _ _ _ _ Ht) as T.
    (assert (T' : match to with [] => Ok [] | c :: t => do b <- name_marshal enc (c :: t); Ok (sr_sep :: b) end = Ok pt) by (destruct to; exact T)); rewrite T'; cbn [bind].
    destruct isdir; reflexivity.
  - unfold sr_unmarshal, sr0. change (B " ") with [" "%byte]. cbn [app]. rewrite cut_app by (apply en_no_space; exact S).
    assert (NM : name_unmarshal dec (esc_name wf) = Ok f) by (clear - N; texts; assumption). rewrite NM.
    destruct isdir.
    + destruct (Dr eq_refl) as (-> & Z1 & Z2). change [x05] with [sr_sep].
      match goal with |- context [cut sr_sep ?x] =>
        replace x with ((join (B "\") q ++ " "%byte :: (format_int free ++ B "/" ++ format_int total)) ++ sr_sep :: (ph ++ B " (" ++ addr ++ B ")" ++ pt)) by (rewrite <- ?app_assoc; cbn [app]; rewrite <- ?app_assoc; reflexivity) end.
      rewrite cut_app.
      2:{ apply in_app_not; [exact NX|]. intros [K|K]; [discriminate|]. revert K. apply in_app_not; [apply format_int_notin; [reflexivity|discriminate]|]. apply in_app_not; [not_in|apply format_int_notin; [reflexivity|discriminate]]. }
      assert (NN : forall z, (0 <= z)%Z -> format_int z = format_uint (Z.to_N z)).
      { intros z Hz. unfold format_int. replace (z <? 0)%Z with false by (symmetry; apply Z.ltb_ge; lia). reflexivity. }
      rewrite scan_dir.
      2:{ rewrite !NN by assumption. apply Forall_app. split; [apply digit_slot|]. constructor; [left; reflexivity|apply digit_slot]. }
      2:{ apply in_app_iff. right. left. reflexivity. }
      rewrite (sr_slots_raw dec _ q _ _ _ (join (B "\") path)); [|assumption|apply QB; left; reflexivity|assumption|assumption|assumption].
      rewrite (sr_hub_ok enc dec) with (hub := hub) (tth := tth) (to := to); try assumption; try reflexivity.
    + change [x05] with [sr_sep]. specialize (NS eq_refl).
      match goal with |- context [cut sr_sep ?x] =>
        replace x with (join (B "\") q ++ sr_sep :: (format_uint size ++ " "%byte :: format_int free ++ B "/" ++ format_int total) ++ sr_sep :: (ph ++ B " (" ++ addr ++ B ")" ++ pt)) by (rewrite <- ?app_assoc; cbn [app]; rewrite <- ?app_assoc; reflexivity) end.
      rewrite cut_app by exact NX.
      pose proof (scan_file _ NS) as SC.
      rewrite cut_app.
      2:{ apply in_app_not; [apply format_uint_notin; reflexivity|]. intros [K|K]; [discriminate|]. revert K. apply in_app_not; [apply format_int_notin; [reflexivity|discriminate]|]. apply in_app_not; [not_in|apply format_int_notin; [reflexivity|discriminate]]. }
      rewrite cut_app by apply uint_no_space. rewrite parse_uint_trim_format by exact Su.
      rewrite (sr_slots_raw dec _ q _ _ _ (join (B "\") path)); [|assumption|apply QB; left; reflexivity|assumption|assumption|assumption].
      destruct (sr_scan (rev (join (B "\") q)) false []) as [[|] [[? ?]|]]; try contradiction;
        rewrite (sr_hub_ok enc dec) with (hub := hub) (tth := tth) (to := to); try assumption; try reflexivity.
Qed.

(** ** MyINFO flags *)
Lemma prefix_before (c : byte) : forall a n b r, ~ In c a -> a ++ c :: b = n ++ c :: r -> exists y, n = a ++ y.
Proof.
  induction a as [|x a IH]; intros n b r H E; [exists n; reflexivity|]. destruct n as [|z n]; cbn [app] in E; injection E as -> E.
  - exfalso. apply H. left. reflexivity.
  - destruct (IH n b r) as [y ->]; [intros K; apply H; right; exact K|exact E|]. exists y. reflexivity.
Qed.
(** With the flag '$' no line is accepted. *)
Lemma dollar_flag_rejected enc dec m m0 p : mi_flag m = "$"%byte -> myinfo_marshal enc m = Ok p -> exists e, snd (myinfo_unmarshal dec m0 p) = Err e.
Proof.
  intros Fl H. unfold myinfo_marshal in H. apply bind_ok in H. destruct H as (n & Hn & H). apply bind_ok in H. destruct H as (d & Hd & H). apply bind_ok in H. destruct H as (cn & Hc & H). apply bind_ok in H. destruct H as (e & He & H).
  apply ok_inj in H. rewrite Fl in H. change (beq "$" x00) with false in H. cbv iota in H.
  subst p. unfold myinfo_unmarshal. rewrite has_prefix_app.
  set (rest := d ++ tag_text m ++ B "$ $" ++ cn ++ ["$"%byte] ++ B "$" ++ e ++ B "$" ++ format_uint (mi_share m) ++ B "$").
  change (skipn 5 (B "$ALL " ++ n ++ B " " ++ rest)) with (n ++ " "%byte :: rest).
  assert (Nn : ~ In "$"%byte n) by (apply name_marshal_safe in Hn; tauto).
  destruct (cut " " (n ++ " "%byte :: rest)) as [[a b]|] eqn:E; [|eexists; reflexivity]. apply cut_spec in E. destruct E as [E Sa].
  destruct (name_unmarshal dec a) as [nm|er|] eqn:En; [|eexists; reflexivity|now apply name_unmarshal_total in En].
  assert (C : 6 <= count_byte "$" b).
  { destruct (prefix_before " " a n b rest Sa (eq_sym E)) as [y Ey].
    assert (Ca : count_byte "$" a = 0) by (apply count_byte_notin; intros K; apply Nn; rewrite Ey; apply in_app_iff; left; exact K).
    apply (f_equal (count_byte "$")) in E. rewrite !count_byte_app in E. cbn [count_byte] in E. rewrite Ca, (count_byte_notin _ n Nn) in E. change (beq " " "$") with false in E. cbn in E. rewrite <- E.
    unfold rest. rewrite !count_byte_app. change (count_byte "$" (B "$ $")) with 2. change (count_byte "$" ["$"%byte]) with 1. change (count_byte "$" (B "$")) with 1. lia. }
  pose proof (split_byte_count "$" b) as L. destruct (split_byte "$" b) as [|f0 [|f1 [|f2 [|f3 [|f4 [|f5 [|f6 l]]]]]]]; try (eexists; reflexivity). cbn [length] in L. lia.
Qed.
(** With the flag '|' the frame contains a second delimiter. *)
Lemma pipe_flag_breaks enc m p : mi_flag m = "|"%byte -> myinfo_marshal enc m = Ok p -> In "|"%byte p.
Proof.
  intros Fl H. unfold myinfo_marshal in H. apply bind_ok in H. destruct H as (n & Hn & H). apply bind_ok in H. destruct H as (d & Hd & H). apply bind_ok in H. destruct H as (cn & Hc & H). apply bind_ok in H. destruct H as (e & He & H).
  apply ok_inj in H. rewrite Fl in H. rewrite <- H. change (beq "|" x00) with false. cbv iota.
  do 7 (apply in_app_iff; right). apply in_app_iff. left. left. reflexivity.
Qed.

(** ** Connection requests *)
Lemma ctm_source enc m p : ctm_marshal enc m = Ok p -> (ct_kind m = 1%Z <-> ct_src m <> []) /\ ct_targ m <> [] /\ (ct_kind m = 0 \/ ct_kind m = 1 \/ ct_kind m = 2)%Z.
Proof.
  unfold ctm_marshal. intros H. destruct (ct_targ m) as [|t0 t]; [discriminate|]. apply bind_ok in H. destruct H as (t' & _ & H).
  destruct (Z.eqb_spec (ct_kind m) 0) as [->|K0].
  - cbn [bind] in H. change (0 =? 1)%Z with false in H. cbv iota in H. destruct (ct_src m); [|discriminate]. split; [split; [discriminate|contradiction]|]. split; [discriminate|tauto].
  - destruct (Z.eqb_spec (ct_kind m) 1) as [->|K1].
    + cbn [bind] in H. destruct (ct_src m); [discriminate|]. split; [split; [discriminate|reflexivity]|]. split; [discriminate|tauto].
    + destruct (Z.eqb_spec (ct_kind m) 2) as [->|K2]; [|discriminate]. cbn [bind] in H. destruct (ct_src m); [|discriminate]. split; [split; [discriminate|contradiction]|]. split; [discriminate|tauto].
Qed.
