(** Hub messages and user lists: encoding and decoding. *)
From Verif Require Import Base BaseFacts Num NumFacts Utf8 NmdcText NmdcTextFacts SpecText SpecNmdc NmdcMsgFacts NmdcChat NmdcChatFacts NmdcHub.

Lemma err_encodes enc dec m p : err_wire enc dec m p -> err_marshal enc m = Ok p.
Proof. intros H. destruct H; unfold err_marshal; texts; steps; reflexivity. Qed.
Lemma err_decodes enc dec m p m0 : err_wire enc dec m p -> m <> None \/ m0 = None -> err_unmarshal dec m0 p = (m, Ok tt).
Proof.
  intros H Hm. destruct H; unfold err_unmarshal; texts.
  - destruct Hm as [Hm|Hm]; [contradiction|]. subst. apply encodes_to_run in H.
    unfold string_unmarshal. cbn [contains_byte existsb]. rewrite (text_unmarshal_ok dec [] [] []) by (reflexivity || exact H). reflexivity.
  - steps. destruct t; [contradiction|reflexivity].
Qed.

Lemma failover_encodes l p : failover_wire l p -> failover_marshal l = p.
Proof. intros H. destruct H. unfold failover_marshal. symmetry. apply sep_by_join. Qed.
Lemma failover_decodes l p : failover_wire l p -> failover_unmarshal p = l.
Proof.
  intros H. destruct H. rewrite sep_by_join. unfold failover_unmarshal. apply (split_byte_join ","); [exact H|].
  rewrite Forall_forall in H0. exact H0.
Qed.

Lemma supports_encodes l p : supports_wire l p -> supports_marshal l = p.
Proof. intros H. destruct H. unfold supports_marshal. symmetry. apply sep_by_join. Qed.
Lemma join_head sep x l : x <> [] -> exists c r, join sep (x :: l) = c :: r /\ In c x.
Proof. intros H. destruct x as [|c x]; [contradiction|]. destruct l; eexists _, _; (split; [reflexivity|left; reflexivity]). Qed.
Lemma join_last sep l : l <> [] -> Forall (fun x => x <> []) l -> exists c r, join sep l = r ++ [c] /\ exists x, In x l /\ In c x.
Proof.
  induction l as [|x l IH]; intros H F; [contradiction|]. inversion F as [|? ? F1 F2]; subst. destruct l as [|y l].
  - destruct x as [|c r _] using rev_ind; [contradiction|]. exists c, r. split; [reflexivity|]. exists (r ++ [c]). split; [left; reflexivity|apply in_app_iff; right; left; reflexivity].
  - destruct (IH ltac:(discriminate) F2) as (c & r & E & z & Hz & Hc). exists c, (x ++ sep ++ r). split.
    + rewrite join_cons2, E, <- !app_assoc. reflexivity.
    + exists z. split; [right; exact Hz|exact Hc].
Qed.
Lemma trim_by_id f c s d t : c :: s = t ++ [d] -> f c = false -> f d = false -> trim_by f (c :: s) = c :: s.
Proof.
  intros E Hc Hd. unfold trim_by. cbn [drop_while]. rewrite Hc. unfold trim_right_by. rewrite E, rev_app_distr. cbn. rewrite Hd. cbn. rewrite rev_involutive. reflexivity.
Qed.
Lemma filter_all {A} (f : A -> bool) l : (forall x, In x l -> f x = true) -> filter f l = l.
Proof. induction l as [|x l IH]; intros H; [reflexivity|]. cbn. rewrite H by (left; reflexivity). rewrite IH by (intros y Hy; apply H; right; exact Hy). reflexivity. Qed.
Lemma supports_decodes l p : supports_wire l p -> supports_unmarshal p = l.
Proof.
  intros H. destruct H. rewrite sep_by_join. unfold supports_unmarshal. destruct l as [|e l]; [reflexivity|].
  rewrite Forall_forall in H.
  assert (F : Forall (fun x => x <> []) (e :: l)) by (apply Forall_forall; intros x Hx; apply (H x Hx)).
  destruct (join_head (B " ") e l) as (c & r & E & Hc); [apply (H e); left; reflexivity|].
  destruct (join_last (B " ") (e :: l) ltac:(discriminate) F) as (d & t & E2 & x & Hx & Hd).
  assert (T : trim_by is_sp (join (B " ") (e :: l)) = join (B " ") (e :: l)).
  { rewrite E. apply (trim_by_id _ c r d t); [rewrite <- E; exact E2|..]; unfold is_sp; apply beq_false; intros ->.
    - apply (H e); [left; reflexivity|exact Hc].
    - apply (H x); assumption. }
  rewrite T. change (B " ") with [" "%byte]. rewrite split_byte_join; [|discriminate|intros y Hy; apply (H y Hy)].
  apply filter_all. intros y Hy. destruct y; [exfalso; exact (proj1 (H [] Hy) eq_refl)|reflexivity].
Qed.

(** ** Lock *)

Lemma lock_encodes m p : lock_wire m p -> lock_marshal m = p.
Proof.
  intros H. destruct H. unfold lock_marshal. cbn [lk_noext lk_lock lk_pk lk_ref]. f_equal. f_equal.
  destruct pk as [|k pk], ref as [|r ref]; try reflexivity. cbn [app]. rewrite <- !app_assoc, ?app_nil_r. reflexivity.
Qed.
Lemma cut_ref a r : ~ occurs (B "Ref=") a -> cut_seq (B "Ref=") (a ++ B "Ref=" ++ r) = Some (a, r).
Proof.
  intros H. apply cut_seq_before; [discriminate|]. intros x y -> Hy. apply not_true_is_false. intros P.
  apply has_prefix_spec in P. destruct P as [q P].
  assert (Hs : ~ has_prefix (B "Ref=") y = true).
  { intros K. apply has_prefix_spec in K. destruct K as [z ->]. apply H. exists x, z. reflexivity. }
  destruct y as [|c0 y]; [contradiction|]. cbn in P. injection P as -> P.
  repeat (destruct y as [|?c y]; [cbn in P; discriminate P|cbn in P; injection P as -> P]).
  apply Hs. reflexivity.
Qed.
Lemma lock_rest l pk ref d : ~ In " "%byte l -> ~ occurs (B "Ref=") pk ->
  d = l ++ match pk, ref with
       | [], [] => []
       | [], r => B " Ref=" ++ r
       | k, [] => B " Pk=" ++ k
       | k, r => B " Pk=" ++ k ++ B "Ref=" ++ r
       end ->
  match cut " " d with
  | None => (d, [], [])
  | Some (l, data) =>
      let data := trim_prefix (B "Pk=") data in
      match cut_seq (B "Ref=") data with
      | Some (pk, ref) => (l, pk, ref)
      | None => (l, data, [])
      end
  end = (l, pk, ref).
Proof.
  intros Hl Hp ->. destruct pk as [|k pk], ref as [|r ref].
  - rewrite app_nil_r, (proj2 (cut_none _ _)) by exact Hl. reflexivity.
  - change (B " Ref=" ++ r :: ref) with (" "%byte :: B "Ref=" ++ r :: ref). rewrite cut_app by exact Hl. cbn zeta.
    change (trim_prefix (B "Pk=") (B "Ref=" ++ r :: ref)) with (B "Ref=" ++ r :: ref).
    change (B "Ref=" ++ r :: ref) with ([] ++ B "Ref=" ++ r :: ref). rewrite cut_ref by exact Hp. reflexivity.
  - change (B " Pk=" ++ k :: pk) with (" "%byte :: B "Pk=" ++ k :: pk). rewrite cut_app by exact Hl. cbn zeta. rewrite trim_prefix_app.
    rewrite (proj2 (cut_seq_none _ _)) by exact Hp. reflexivity.
  - change (B " Pk=" ++ (k :: pk) ++ B "Ref=" ++ r :: ref) with (" "%byte :: B "Pk=" ++ (k :: pk) ++ B "Ref=" ++ r :: ref). rewrite cut_app by exact Hl. cbn zeta. rewrite trim_prefix_app.
    rewrite cut_ref by exact Hp. reflexivity.
Qed.
Lemma lock_unmarshal_eq data : lock_unmarshal data =
  let '(noext, d) := if has_prefix ext_lock_pref data then (false, skipn (length ext_lock_pref) data) else (true, data) in
  let '(l, pk, ref) := match cut " " d with
  | None => (d, [], [])
  | Some (l, data) =>
      let data := trim_prefix (B "Pk=") data in
      match cut_seq (B "Ref=") data with
      | Some (pk, ref) => (l, pk, ref)
      | None => (l, data, [])
      end
  end in mk_lock noext l pk ref.
Proof.
  unfold lock_unmarshal. destruct (if has_prefix ext_lock_pref data then _ else _) as [noext d].
  destruct (cut " " d) as [[l x]|]; [|reflexivity]. cbn zeta. destruct (cut_seq _ _) as [[? ?]|]; reflexivity.
Qed.
Lemma has_prefix_app_none p a r : has_prefix p a = false -> (exists c r', r = c :: r' /\ ~ In c p) \/ r = [] -> has_prefix p (a ++ r) = false.
Proof.
  revert a. induction p as [|x p IH]; intros a H Hr; [discriminate|]. destruct a as [|y a].
  - cbn [app]. destruct Hr as [(c & r' & -> & Hc)| ->]; [|reflexivity]. cbn. rewrite (proj2 (beq_false x c)); [reflexivity|]. intros ->. apply Hc. left. reflexivity.
  - cbn in H |- *. destruct (beq x y); [|reflexivity]. cbn in H |- *. apply IH; [exact H|]. destruct Hr as [(c & r' & -> & Hc)|Hr]; [left|right; exact Hr].
    exists c, r'. split; [reflexivity|]. intros K. apply Hc. right. exact K.
Qed.
Lemma lock_decodes m p : lock_wire m p -> lock_unmarshal p = m.
Proof.
  intros H. destruct H as [noext l pk ref Hl Hn Hp]. rewrite lock_unmarshal_eq.
  match goal with |- context [_ ++ l ++ ?x] => set (rest := x) end.
  assert (E : (if has_prefix ext_lock_pref ((if noext then [] else B "EXTENDEDPROTOCOL") ++ l ++ rest)
     then (false, skipn (length ext_lock_pref) ((if noext then [] else B "EXTENDEDPROTOCOL") ++ l ++ rest))
     else (true, (if noext then [] else B "EXTENDEDPROTOCOL") ++ l ++ rest)) = (noext, l ++ rest)).
  { destruct noext.
    - cbn [app]. rewrite has_prefix_app_none; [reflexivity| |].
      + specialize (Hn eq_refl). rewrite starts_with_prefix in Hn. apply not_true_is_false. exact Hn.
      + unfold rest. destruct pk, ref; [right; reflexivity|left..]; (eexists _, _; split; [reflexivity|not_in]).
    - unfold ext_lock_pref. rewrite has_prefix_app, skipn_app_exact. reflexivity. }
  rewrite E. rewrite (lock_rest l pk ref (l ++ rest) Hl Hp eq_refl). reflexivity.
Qed.

(** ** Hub information *)

Lemma hubinfo_encodes enc dec m p : hubinfo_wire enc dec m p -> hubinfo_marshal enc m = Ok p.
Proof.
  intros H. destruct H. unfold hubinfo_marshal. cbn [hi_name hi_host hi_desc hi_i1 hi_i2 hi_i3 hi_i4 hi_soft hi_vers hi_owner hi_state hi_encoding].
  texts. steps. rewrite !format_int_text. cbn [sep_by]. destruct vers; reflexivity.
Qed.
Lemma hubinfo_decodes enc dec m p m0 : hubinfo_wire enc dec m p -> hi_vers m0 = [] -> hubinfo_unmarshal dec m0 p = (m, Ok tt).
Proof.
  intros H Hv. destruct m0. cbn in Hv. subst hi_vers. destruct H as [n wn host d wd i1 i2 i3 i4 soft vers o wo s ws e H1 H2 H3 H4 I1 I2 I3 I4 D1 D2 D3 D4 V1 V2].
  texts. rewrite <- !format_int_text. unfold hubinfo_unmarshal.
  assert (NI : forall z, ~ In "$"%byte (format_int z)) by (intros z; apply format_int_notin; [reflexivity|discriminate]).
  assert (DS : ~ In "$"%byte (match vers with [] => soft | _ => soft ++ B " " ++ vers end)).
  { destruct vers; [exact D2|]. apply in_app_not; [exact D2|]. apply in_app_not; [not_in|exact D3]. }
  cbn [sep_by]. change (B "$") with ["$"%byte]. cbn [app].
  rewrite splitn_byte_cut by apply esc_string_no_dollar. rewrite splitn_byte_cut by exact D1. rewrite splitn_byte_cut by apply esc_string_no_dollar.
  rewrite !(fun n => splitn_byte_cut n "$" (format_int _)) by apply NI.
  rewrite splitn_byte_cut by exact DS. rewrite !splitn_byte_cut by apply esc_string_no_dollar. rewrite splitn_byte_notin by exact D4.
  cbn [length hubinfo_fields hubinfo_field]. steps.
  rewrite !atoi_trim_format by (apply i64_is; assumption). steps.
  assert (SV : forall mm : hubinfo, hi_vers mm = [] -> match last_cut " " (match vers with [] => soft | _ => soft ++ B " " ++ vers end) with
         | Some (nm, v) => (set_hi_vers (set_hi_soft mm nm) v, Ok tt)
         | None => (set_hi_soft mm (match vers with [] => soft | _ => soft ++ B " " ++ vers end), Ok tt)
         end = (set_hi_vers (set_hi_soft mm soft) vers, Ok tt)).
  { intros mm Hm. destruct vers as [|v0 vers].
    - rewrite (proj2 (last_cut_none _ _)) by (apply V1; reflexivity). destruct mm. cbn in Hm. subst. reflexivity.
    - change (soft ++ B " " ++ v0 :: vers) with (soft ++ " "%byte :: (v0 :: vers)). rewrite last_cut_app by exact V2. reflexivity. }
  rewrite SV by reflexivity. steps. reflexivity.
Qed.

(** ** Lists *)

Lemma occurs_count c p s : occurs p s -> count_byte c p <= count_byte c s.
Proof. intros (a & r & ->). rewrite !count_byte_app. lia. Qed.
Lemma no_double x : ~ In "$"%byte x -> ~ occurs (B "$$") (x ++ removelast (B "$$")) /\ ~ occurs (B "$$") x.
Proof.
  intros H. split; intros K; apply (occurs_count "$") in K; rewrite ?count_byte_app, (count_byte_notin _ _ H) in K; cbn in K; lia.
Qed.
Lemma concat_join (sep : bytes) l : l <> [] -> concat (map (fun e => e ++ sep) l) = join sep l ++ sep.
Proof.
  induction l as [|x l IH]; intros H; [contradiction|]. cbn [map concat]. destruct l as [|y l]; [cbn; rewrite app_nil_r; reflexivity|].
  rewrite IH by discriminate. rewrite join_cons2, <- !app_assoc. reflexivity.
Qed.

Lemma names_both enc dec l ws : Forall2 (name_text enc dec) l ws ->
  names_loop enc l = Ok (concat (map (fun w => flat_map entity_name w ++ B "$$") ws)) /\
  names_sub dec (map esc_name ws) = Ok l /\ map (flat_map entity_name) ws = map esc_name ws.
Proof.
  induction 1 as [|n w l ws H1 H2 (IH1 & IH2 & IH3)]; [repeat split|].
  apply name_both in H1. destruct H1 as (M & U & E). cbn [names_loop map concat names_sub]. rewrite M, U, IH1, IH2, E, IH3. cbn [bind].
  rewrite <- app_assoc. repeat split.
Qed.
Lemma names_encodes enc dec l p : names_wire enc dec l p -> names_marshal enc l = Ok p.
Proof.
  intros H. destruct H; [reflexivity|]. unfold names_marshal. destruct l as [|n l]; [contradiction|]. apply names_both in H0. apply H0.
Qed.
Lemma esc_name_nil w : esc_name w = [] -> w = [].
Proof. destruct w as [|c w]; [reflexivity|]. intros E. exfalso. cbn in E. unfold esc_char_name in E. repeat (destruct (beq c _) in E; [discriminate|]). discriminate. Qed.
Lemma names_decodes enc dec l p m0 : names_wire enc dec l p -> names_unmarshal dec m0 p = (l, Ok tt).
Proof.
  intros H. destruct H as [|l ws Hl H Hw]; [reflexivity|]. pose proof (names_both _ _ _ _ H) as (_ & U & E).
  assert (W : map esc_name ws <> []).
  { intros K. apply map_eq_nil in K. subst ws. inversion H. subst. contradiction. }
  unfold names_unmarshal. rewrite <- (map_map (flat_map entity_name) (fun e => e ++ B "$$")), E, concat_join by exact W. rewrite trim_suffix_app.
  destruct (join (B "$$") (map esc_name ws)) as [|c r] eqn:J.
  - exfalso. destruct ws as [|w [|w' ws]]; [apply W; reflexivity| |].
    + cbn in J. apply esc_name_nil in J. subst w. apply Hw. reflexivity.
    + cbn [map] in J. rewrite join_cons2 in J. apply app_eq_nil in J. destruct J as [_ J]. discriminate.
  - rewrite <- J, split_seq_join; [rewrite U; reflexivity|discriminate|exact W|..]; intros x Hx; apply in_map_iff in Hx; destruct Hx as (w & <- & _); apply (no_double (esc_name w)), esc_name_no_dollar.
Qed.

Lemma userip_encodes enc dec l p : userip_wire enc dec l p -> userip_marshal enc l = Ok p.
Proof.
  intros H. destruct H as [l ws Hl H _]. clear Hl. revert ws H. induction l as [|[n ip] l IH]; intros ws H; inversion H as [|? w ? ws' H1 H2]; subst; [reflexivity|].
  apply name_both in H1. destruct H1 as (M & _ & E). cbn [userip_marshal map combine concat fst snd]. rewrite M. cbn [bind]. rewrite (IH ws' H2). cbn [bind]. rewrite E, <- !app_assoc. reflexivity.
Qed.
Lemma userip_sub_ok dec l ws : Forall2 (fun n w => name_unmarshal dec (esc_name w) = Ok n) (map fst l) ws ->
  Forall (fun a => ~ In " "%byte (snd a) /\ ~ In "$"%byte (snd a)) l ->
  forall acc, userip_sub dec (map (fun wa => esc_name (fst wa) ++ B " " ++ snd wa) (combine ws (map snd l))) acc = (acc ++ l, Ok tt).
Proof.
  revert ws. induction l as [|[n ip] l IH]; intros ws H F acc; inversion H as [|? w ? ws' H1 H2]; subst; [cbn; rewrite app_nil_r; reflexivity|].
  inversion F as [|? ? [F1 F2] F3]; subst. cbn [map combine userip_sub fst snd]. cbn [snd] in F1.
  change (esc_name w ++ B " " ++ ip) with (esc_name w ++ " "%byte :: ip). rewrite last_cut_app by exact F1. rewrite H1. rewrite (IH ws' H2 F3), <- app_assoc. reflexivity.
Qed.
Lemma has_suffix_last (x y : byte) s : x <> y -> has_suffix [x] (s ++ [y]) = false.
Proof. intros H. unfold has_suffix. rewrite rev_app_distr. cbn. rewrite (proj2 (beq_false x y)) by exact H. reflexivity. Qed.
Lemma userip_decodes enc dec l p : userip_wire enc dec l p -> userip_unmarshal dec p = (l, Ok tt).
Proof.
  intros H. destruct H as [l ws Hl H F].
  assert (U : Forall2 (fun n w => name_unmarshal dec (esc_name w) = Ok n) (map fst l) ws).
  { eapply Forall2_weaken; [|exact H]. intros a c Hac. apply name_both in Hac. apply Hac. }
  assert (E : concat (map (fun wa => flat_map entity_name (fst wa) ++ B " " ++ snd wa ++ B "$$") (combine ws (map snd l))) =
              concat (map (fun e => e ++ B "$$") (map (fun wa => esc_name (fst wa) ++ B " " ++ snd wa) (combine ws (map snd l))))).
  { rewrite map_map. f_equal. apply map_ext_in. intros [w a] Hi. cbn [fst snd]. apply in_combine_l in Hi.
    assert (EN : flat_map entity_name w = esc_name w).
    { clear - H Hi. induction H as [|n w' ln ws H1 H2 IH]; [destruct Hi|]. destruct Hi as [->|Hi]; [eapply name_en; exact H1|auto]. }
    rewrite EN, <- !app_assoc. reflexivity. }
  rewrite E.
  set (items := map (fun wa => esc_name (fst wa) ++ B " " ++ snd wa) (combine ws (map snd l))).
  assert (I0 : items <> []).
  { unfold items. destruct l as [|[n ip] l]; [contradiction|]. inversion U; subst. discriminate. }
  assert (ID : forall x, In x items -> ~ In "$"%byte x).
  { intros x Hx. unfold items in Hx. apply in_map_iff in Hx. destruct Hx as ([w a] & <- & Hi). cbn [fst snd]. apply in_combine_r in Hi. apply in_map_iff in Hi. destruct Hi as (b & <- & Hb).
    rewrite Forall_forall in F. apply in_app_not; [apply esc_name_no_dollar|]. apply in_app_not; [not_in|]. apply (F b Hb). }
  unfold userip_unmarshal. rewrite concat_join by exact I0.
  assert (T : trim_suffix [x0d] (join (B "$$") items ++ B "$$") = join (B "$$") items ++ B "$$").
  { apply trim_suffix_none. change (B "$$") with (["$"%byte] ++ ["$"%byte]) at 2. rewrite app_assoc. apply has_suffix_last. discriminate. }
  rewrite T, trim_suffix_app, split_seq_join; [apply userip_sub_ok; assumption|discriminate|exact I0|..]; intros x Hx; apply (no_double x), ID, Hx.
Qed.
