(** Proofs about the ADC packet reader with callbacks and messages that use the line reader. *)
From Verif Require Import Base BaseFacts LineReader LineReentry SpecLine LineReaderStream LineSession LineFuel SpecSession SpecReentry LineReentryFacts.
From Verif Require Import AdcText AdcValue AdcMessage AdcPacket AdcPacketFacts AdcReader SpecAdcReader AdcEndToEnd SpecAdcStream AdcStreamFacts Registry AdcForeign SpecAdcForeign AdcForeignFacts AdcReentry SpecAdcReentry.
From Coq Require Import Lia.

Section Reentry.
Context {W V Z : Type} (act : Z -> zaction Z) (zinit : Z).
Notation lr := (@lreader (fenv W V) Z).
Notation env := (fenv (W * lr) V).
Notation small := (fenv W V).
Notation ev := SpecLine.eventually.

Lemma a_line_takes f (s : env) o s' : a_line act zinit f s = Some (o, s') -> takes act zinit s o s'.
Proof.
  destruct s as [[w [hs r]] m]. unfold a_line, takes. cbn [fst snd lr_hooks lr_rest].
  destruct (re_read_line act zinit f (w, m) _) as [[[o1 [w1 m1]] L1]|] eqn:E; [|discriminate].
  intros [= <- <-]. cbn [fst snd]. destruct r. cbn in E |- *. eapply line_reads; [|exact E]. reflexivity.
Qed.
Lemma takes_a_line (s : env) o s' : takes act zinit s o s' -> ev (fun f => a_line act zinit f s = Some (o, s')).
Proof.
  destruct s as [[w [hs r]] m], s' as [[w' L'] m']. unfold takes. cbn [fst snd]. intro R. destruct (reads_line act zinit _ _ _ _ _ R) as [f E]; [now destruct r|].
  exists f. intros g G. unfold a_line. cbn [lr_hooks lr_rest]. destruct r. cbn in E |- *. now rewrite E.
Qed.

Section Calls.
Variable decode : gotype V -> bytes -> V -> env -> env * res V.
Variable keep : option (env -> env * option error).

Lemma a_next_says : forall f g s x s', a_next act zinit keep f g s = Some (x, s') -> expects act zinit keep s tt x s' tt.
Proof.
  induction f as [|f IH]; intros g s x s' H; [discriminate|]. cbn [a_next] in H.
  destruct (a_line act zinit g s) as [[o s1]|] eqn:L; [|discriminate]. apply a_line_takes in L.
  destruct o as [l|o e|]; [|injection H as <- <-; eapply ex_error; eassumption|injection H as <- <-; now apply ex_panic].
  destruct (ends_line l) eqn:E; cbn [negb] in H.
  - assert (exists b, l = b ++ [x0a]) as (b & ->).
    { unfold ends_line in E. destruct l as [|y l] using rev_ind; [discriminate|]. rewrite last_last in E. assert (y = x0a) as -> by (revert E; destruct (l ++ [y]); [discriminate|apply beq_true]). eauto. }
    destruct (Nat.ltb_spec 1 (length (b ++ [x0a]))) as [K|K].
    + injection H as <- <-. apply ex_line; [exact L|]. intros ->. cbn in K. lia.
    + assert (b = []) as -> by (rewrite app_length in K; cbn in K; destruct b; [reflexivity|cbn in K; lia]). cbn [app] in L.
      destruct keep as [k|].
      * destruct (k s1) as [s2 [e|]] eqn:Ks.
        -- injection H as <- <-. eapply ex_stop; [exact L|exact Ks].
        -- eapply ex_alive; [exact L|exact Ks|]. now apply (IH g).
      * eapply ex_alive; [exact L|reflexivity|]. now apply (IH g).
  - injection H as <- <-. eapply ex_open; [exact L|]. intros b ->. rewrite ends_line_snoc in E. discriminate.
Qed.

Lemma a_call_shape f c s : reads c -> a_call act zinit decode keep f c s =
  match a_next act zinit keep f f s with
  | None => None
  | Some (Ok l, s1) => let '(s2, a) := f_answer decode c l s1 in Some (a, s2)
  | Some (x, s1) => Some (f_failed c x, s1)
  end.
Proof. destruct c; [reflexivity..|contradiction]. Qed.

Lemma a_calls_say f : forall cs s os s', a_calls act zinit decode keep f cs s = Some (os, s') ->
  exists h, serves decode (expects act zinit keep) s tt h s' tt /\ map fst h = cs /\ map snd h = os.
Proof.
  induction cs as [|c cs IH]; intros s os s' H; cbn [a_calls] in H.
  - injection H as <- <-. exists []. repeat split. constructor.
  - destruct (a_call act zinit decode keep f c s) as [[a s1]|] eqn:C; [|discriminate]. destruct (a_calls act zinit decode keep f cs s1) as [[os2 s2]|] eqn:D; [|discriminate].
    injection H as <- <-. destruct (IH _ _ _ D) as (h & SV & F & G).
    assert (RC : reads c -> serves decode (expects act zinit keep) s tt ((c, a) :: h) s2 tt).
    { intros RD. rewrite (a_call_shape f c s RD) in C.
      destruct (a_next act zinit keep f f s) as [[x s0]|] eqn:N; [|discriminate]. apply a_next_says in N.
      destruct x as [l|e|].
      - destruct (f_answer decode c l s0) as [s3 a3] eqn:E. injection C as <- <-.
        eapply sv_line; [exact RD|exact N|eapply f_answer_says; [exact RD|exact E]|exact SV].
      - injection C as <- <-. replace (f_failed c (Err e)) with (refuses c e) by now destruct c. eapply sv_fail; eassumption.
      - injection C as <- <-. replace (f_failed c (@Panic bytes)) with (crashes c) by now destruct c. eapply sv_panic; eassumption. }
    destruct c as [sp|sp|sp|sp|t v]; try (eexists; split; [exact (RC Logic.I)|]; cbn [map fst snd]; rewrite F, G; auto; fail).
    clear RC. cbn [a_call] in C. unfold f_register, register in C. destruct s as [w m]. cbn [fst snd] in C.
    destruct (find_type m (go_name t v)) as [u|] eqn:E; injection C as <- <-; cbn [fst snd map].
    + exists ((FRegister t v, FADone true) :: h). cbn [map fst snd]. rewrite F, G. split; [|auto]. apply sv_known; [|exact SV]. rewrite <- find_no_entry. congruence.
    + exists ((FRegister t v, FADone false) :: h). cbn [map fst snd]. rewrite F, G. split; [|auto]. apply sv_new; [|exact SV]. now apply find_no_entry.
Qed.

(** The other direction. *)
Definition similar (x y : res bytes) : Prop := match x, y with Ok a, Ok b => a = b | Err _, Err _ => True | Panic, Panic => True | _, _ => False end.
Lemma expects_a_next s x s' : expects act zinit keep s tt x s' tt ->
  exists y, similar x y /\ exists f0, forall f g, f0 <= f -> f0 <= g -> a_next act zinit keep f g s = Some (y, s').
Proof.
  intro H. remember tt as u eqn:U in H at 1. remember tt as u' eqn:U' in H. clear U U'.
  induction H as [s o e s1 T|s s1 T|s l e s1 T N|s b s1 T N|s s1 s2 o s3 T K X IH|s s1 s2 e T K]; apply takes_a_line in T as [f1 T].
  - exists (Err e). split; [exact Logic.I|]. exists (S f1). intros f g F G. destruct f as [|f]; [lia|]. cbn [a_next]. now rewrite T by lia.
  - exists Panic. split; [exact Logic.I|]. exists (S f1). intros f g F G. destruct f as [|f]; [lia|]. cbn [a_next]. now rewrite T by lia.
  - exists (Err (EText "invalid packet delimiter")). split; [exact Logic.I|]. exists (S f1). intros f g F G. destruct f as [|f]; [lia|]. cbn [a_next]. rewrite T by lia.
    replace (ends_line l) with false; [reflexivity|]. symmetry. unfold ends_line. destruct l as [|y l] using rev_ind; [reflexivity|]. rewrite last_last.
    assert (Y : y <> x0a) by (intros ->; now elim (N l)). destruct (l ++ [y]); [reflexivity|]. now apply beq_false.
  - exists (Ok (b ++ [x0a])). split; [reflexivity|]. exists (S f1). intros f g F G. destruct f as [|f]; [lia|]. cbn [a_next]. rewrite T by lia. rewrite ends_line_snoc. cbn [negb].
    replace (1 <? length (b ++ [x0a]))%nat with true; [reflexivity|]. symmetry. apply Nat.ltb_lt. rewrite app_length. cbn. destruct b; [now elim N|cbn; lia].
  - destruct IH as (y & SY & f2 & E). exists y. split; [exact SY|]. exists (S (f1 + f2)). intros f g F G. destruct f as [|f]; [lia|]. cbn [a_next]. rewrite T by lia. cbn [ends_line last negb length Nat.ltb Nat.leb].
    unfold on_keep in K. destruct keep as [k|]; [rewrite K|injection K as <-]; apply E; lia.
  - exists (Err e). split; [exact Logic.I|]. exists (S f1). intros f g F G. destruct f as [|f]; [lia|]. cbn [a_next]. rewrite T by lia. cbn [ends_line last negb length Nat.ltb Nat.leb].
    unfold on_keep in K. destruct keep as [k|]; [now rewrite K|discriminate].
Qed.
Lemma alike_refuses c e e' : alike (refuses (V:=V) c e) (refuses c e').
Proof. destruct c; exact Logic.I. Qed.
Lemma alike_crashes c : alike (crashes (V:=V) c) (crashes c).
Proof. destruct c; exact Logic.I. Qed.
Lemma serves_a_calls s h s' : serves decode (expects act zinit keep) s tt h s' tt ->
  exists os, Forall2 alike (map snd h) os /\ ev (fun f => a_calls act zinit decode keep f (map fst h) s = Some (os, s')).
Proof.
  intro H. remember tt as u eqn:U in H at 1. remember tt as u' eqn:U' in H. clear U U'.
  induction H as [s u|w m u t v h s' u' N SV IH|w m u t v h s' u' N SV IH|s u c l s1 u1 a s2 h s' u' RD L AN SV IH|s u c e s1 u1 h s' u' RD L SV IH|s u c s1 u1 h s' u' RD L SV IH]; cbn [map fst snd].
  - exists []. split; [constructor|]. now exists 0.
  - destruct IH as (os & F & f0 & E). exists (FADone true :: os). split; [now constructor|]. exists f0. intros f G. cbn [a_calls a_call]. unfold f_register, register. cbn [fst snd].
    destruct (find_type m (go_name t v)) as [x|] eqn:FT; [|exfalso; apply N; now apply find_no_entry]. now rewrite E.
  - destruct IH as (os & F & f0 & E). exists (FADone false :: os). split; [now constructor|]. exists f0. intros f G. cbn [a_calls a_call]. unfold f_register, register. cbn [fst snd].
    apply find_no_entry in N. rewrite N. cbn [fst snd]. now rewrite E.
  - destruct u, u1. destruct (expects_a_next _ _ _ L) as (y & SY & f1 & E1). destruct y as [l'|e|]; cbn in SY; try contradiction. subst l'.
    destruct IH as (os & F & f2 & E2). destruct (f_answer decode c l s1) as [s3 b] eqn:FA. pose proof (f_answer_says decode c l s1 s3 b RD FA) as AN2.
    destruct (answered_unique decode _ _ _ _ _ _ _ AN AN2) as [<- AL]. exists (b :: os). split; [now constructor|]. exists (f1 + f2). intros f G. cbn [a_calls]. rewrite (a_call_shape f c s RD), E1 by lia.
    rewrite FA. now rewrite E2 by lia.
  - destruct u, u1. destruct (expects_a_next _ _ _ L) as (y & SY & f1 & E1). destruct y as [l'|e'|]; cbn in SY; try contradiction.
    destruct IH as (os & F & f2 & E2). exists (refuses c e' :: os). split; [constructor; [apply alike_refuses|exact F]|]. exists (f1 + f2). intros f G. cbn [a_calls]. rewrite (a_call_shape f c s RD), E1 by lia.
    rewrite E2 by lia. now destruct c.
  - destruct u, u1. destruct (expects_a_next _ _ _ L) as (y & SY & f1 & E1). destruct y as [l'|e'|]; cbn in SY; try contradiction.
    destruct IH as (os & F & f2 & E2). exists (crashes c :: os). split; [constructor; [apply alike_crashes|exact F]|]. exists (f1 + f2). intros f G. cbn [a_calls]. rewrite (a_call_shape f c s RD), E1 by lia.
    rewrite E2 by lia. now destruct c.
Qed.
End Calls.

(** ** Callbacks and messages that do not use the line reader *)
Section Plain.
Variable decode : gotype V -> bytes -> V -> small -> small * res V.
Variable keep : option (small -> small * option error).

Lemma lift_receive name d (L : lr) s : f_receive (lift_decode decode) name d (beside L s) = (beside L (fst (f_receive decode name d s)), snd (f_receive decode name d s)).
Proof.
  destruct s as [w m]. unfold f_receive, beside, lift_decode. cbn [fst snd]. destruct (find_type m name) as [t|]; [|reflexivity].
  destruct (decode t d (go_zero t) (w, m)) as [s1 [v|e|]]; reflexivity.
Qed.
Lemma lift_answer c l (L : lr) s : f_answer (lift_decode decode) c l (beside L s) = (beside L (fst (f_answer decode c l s)), snd (f_answer decode c l s)).
Proof.
  assert (MS : forall n d, f_message (lift_decode decode) n d (beside L s) = (beside L (fst (f_message decode n d s)), snd (f_message decode n d s))).
  { intros n d. unfold f_message. rewrite lift_receive. destruct (f_receive decode n d s) as [s1 [[v|]|e|]]; reflexivity. }
  destruct c as [sp|sp|sp|sp|t v]; cbn [f_answer]; [| | | |reflexivity]; destruct (decode_packet_raw sp l) as [p|e|]; try reflexivity.
  - unfold f_decode. cbn [fp_msg fp_packet]. destruct (message p); try reflexivity. rewrite lift_receive. destruct (f_receive decode _ _ s) as [s1 [x|e|]]; reflexivity.
  - destruct p as [m|m| | | | | |]; try reflexivity; destruct m; try reflexivity; apply MS.
  - destruct p as [m|m|m|m| | | |]; try reflexivity; destruct m; try reflexivity; apply MS.
Qed.

Lemma plain_a_line f s (r : reader small Z) : a_line act zinit f (beside (of_reader r) s) =
  match read_line act f s r with Some (o, s', r') => Some (o, beside (of_reader r') s') | None => None end.
Proof.
  destruct s as [w m].
  change (a_line act zinit f (beside (of_reader r) (w, m))) with
    (match re_read_line act zinit f (w, m) (of_reader r) with None => None | Some (o, (w', m'), L') => Some (o, ((w', L'), m')) end).
  rewrite (plain_line (W := small)). unfold fenv. destruct (read_line act f (w, m) r) as [[[o [w' m']] r']|]; reflexivity.
Qed.
Lemma plain_a_next : forall f g s (r : reader small Z), a_next act zinit (lift_keep keep) f g (beside (of_reader r) s) =
  match next_packet act f g keep s r with Some (x, s', r') => Some (x, beside (of_reader r') s') | None => None end.
Proof.
  induction f as [|f IH]; intros g s r; [reflexivity|]. cbn [a_next next_packet]. rewrite plain_a_line. destruct (read_line act g s r) as [[[[l|o e|] s1] r1]|]; try reflexivity.
  destruct (negb (ends_line l)); [reflexivity|]. destruct (1 <? length l)%nat; [reflexivity|]. unfold lift_keep. destruct keep as [k|]; [|apply IH].
  destruct s1 as [w1 m1]. unfold beside at 1 2. cbn [fst snd]. destruct (k (w1, m1)) as [s2 [e|]]; [reflexivity|apply IH].
Qed.
Lemma plain_a_calls f : forall cs s (r : reader small Z), a_calls act zinit (lift_decode decode) (lift_keep keep) f cs (beside (of_reader r) s) =
  match f_calls act decode f cs s (mkAreader r keep) with Some (os, s', R') => Some (os, beside (of_reader (ar_line R')) s') | None => None end.
Proof.
  induction cs as [|c cs IH]; intros s r; [reflexivity|]. cbn [a_calls f_calls].
  assert (ST : a_call act zinit (lift_decode decode) (lift_keep keep) f c (beside (of_reader r) s) =
    match f_call act decode f c s (mkAreader r keep) with Some (a, s', R') => Some (a, beside (of_reader (ar_line R')) s') | None => None end /\
    forall a s' R', f_call act decode f c s (mkAreader r keep) = Some (a, s', R') -> ar_keep R' = keep).
  { destruct c as [sp|sp|sp|sp|t v]; cbn [a_call f_call ar_keep ar_line]; [rewrite plain_a_next; destruct (next_packet act f f keep s r) as [[[[l|e|] s1] r1]|]; [|split; [reflexivity|now intros ? ? ? [= <- <- <-]]..|split; [reflexivity|discriminate]]; rewrite lift_answer;
      destruct (f_answer decode _ l s1) as [s2 a]; split; [reflexivity|now intros ? ? ? [= <- <- <-]] ..|].
    destruct s as [w m]. unfold f_register, register, beside. cbn [fst snd]. destruct (find_type m (go_name t v)); (split; [reflexivity|now intros ? ? ? [= <- <- <-]]). }
  destruct ST as [-> KP]. destruct (f_call act decode f c s (mkAreader r keep)) as [[[a s1] [r1 k1]]|] eqn:C; [|reflexivity]. specialize (KP _ _ _ eq_refl). cbn [ar_keep] in KP. subst k1. cbn [ar_line].
  rewrite IH. destruct (f_calls act decode f cs s1 (mkAreader r1 keep)) as [[[os s2] R2]|]; reflexivity.
Qed.

(** ** A line callback that switches on compression *)
Lemma zon_step delim max zon t os rest : SpecReentry.carries act zinit delim max zon t os rest -> forall (w : small) (s : lr), bare s -> lr_hooks s = [zon_hook zon] ->
  SpecSession.serves act zinit (lr_rest s) t -> rd_delim (lr_rest s) = delim -> rd_max (lr_rest s) = max ->
  exists o s' t' os' rest', re_reads act zinit w s o w s' /\ (match os with [] => o = LErr (Some rest) EEOF /\ os' = [] | o1 :: os1 => o = o1 /\ os' = os1 end) /\
    SpecReentry.carries act zinit delim max zon t' os' rest' /\ bare s' /\ lr_hooks s' = [zon_hook zon] /\ SpecSession.serves act zinit (lr_rest s') t' /\ rd_delim (lr_rest s') = delim /\ rd_max (lr_rest s') = max.
Proof.
  pose proof (serves_session (W := unit) act zinit) as SS.
  assert (LN : forall (r : reader unit Z) t l u, rd_hooks r = [] -> SpecSession.serves act zinit r t -> SpecSession.contents t = l ++ u -> is_line (rd_delim r) l -> within (rd_max r) (length l) ->
    exists r' f, SpecSession.serves act zinit r' (after (length l) t) /\ keeps r r' /\ read_line act f tt r = Some (LLine l, tt, r') /\ rd_open r' = true).
  { intros r t0 l u H0 SV C L M. destruct (se_line _ _ _ SS r t0 l u tt tt HPass SV C L M) as (r' & S1 & K & [f E]); [rewrite H0; constructor|].
    exists r', f. specialize (E f (le_n _)). split; [exact S1|]. split; [exact K|]. split; [exact E|]. destruct K as (_ & _ & -> & _).
    destruct (line_hooks _ _ _ _ _ H0 E) as [_ Q]. exact (Q l eq_refl). }
  induction 1 as [t ND WI|t l u os rest C L M NZ CA IH|t u z x more os rest C L M AF INF CA IH|t u x more os rest C L M AF NE CA IH];
    intros w [hs r]; unfold bare; cbn [lr_hooks lr_rest]; intros BA HH SV DE MA; subst delim max hs.
  - destruct (se_rest _ _ _ SS r t tt SV ND WI) as (r' & S1 & (K1 & K2 & K3 & K4) & [f E]).
    exists (LErr (Some (SpecSession.contents t)) EEOF), (mkLreader [zon_hook zon] r'), (Plain []), [], []. split; [eapply SpecReentry.re_none; [exact (E f (le_n _))|discriminate]|].
    split; [now split|]. split; [|unfold bare; cbn [lr_hooks lr_rest]; repeat (split; [congruence|]); repeat split; congruence].
    apply (ca_end act zinit (rd_delim r) (rd_max r) zon (Plain [])); [now intros []|]. unfold within in *. cbn [SpecSession.contents length] in *. lia.
  - destruct (LN r t l u BA SV C L M) as (r' & f & S1 & (K1 & K2 & K3 & K4) & E & O).
    exists (LLine l), (mkLreader [zon_hook zon] r'), (after (length l) t), os, rest. split.
    + eapply SpecReentry.re_pass; [exact E|]. eapply as_pass; [|constructor]. unfold zon_hook. rewrite (proj2 (bytes_eqb_false l zon) NZ). constructor.
    + split; [now split|]. split; [exact CA|]. unfold bare; cbn [lr_hooks lr_rest]. split; [congruence|]. split; [reflexivity|]. split; [exact S1|]. split; congruence.
  - destruct (LN r t zon u BA SV C L M) as (r' & f & S1 & (K1 & K2 & K3 & K4) & E & O). rewrite AF in S1.
    destruct (se_zlib _ _ _ SS r' z x more S1 INF) as (r2 & S2 & (J1 & J2 & J3 & J4) & [f2 E2]).
    destruct (IH w (mkLreader [zon_hook zon] r2)) as (o & s' & t' & os' & rest' & RR & Q); [unfold bare; cbn; congruence|reflexivity|exact S2|cbn; congruence|cbn; congruence|].
    exists o, s', t', os', rest'. split; [|exact Q].
    eapply re_drop; [exact E| | |exact RR]; [|cbn; congruence]. eapply as_stop; [|discriminate]. unfold zon_hook. rewrite bytes_eqb_refl. eapply do_zlib; [exact (E2 f2 (le_n _))|constructor].
  - destruct (LN r t zon u BA SV C L M) as (r' & f & S1 & (K1 & K2 & K3 & K4) & E & O). rewrite AF in S1.
    pose proof (se_zlib_twice _ _ _ SS r' x more 0 S1 NE) as E2.
    exists (LErr None err_zlib_active), (mkLreader [zon_hook zon] r'), (Zip x more), os, rest. split.
    + eapply SpecReentry.re_error; [exact E|]. eapply as_stop; [|discriminate]. unfold zon_hook. rewrite bytes_eqb_refl. eapply do_zlib; [exact E2|constructor].
    + split; [now split|]. split; [exact CA|]. unfold bare; cbn [lr_hooks lr_rest]. split; [congruence|]. split; [reflexivity|]. split; [exact S1|]. split; congruence.
Qed.

(** The state of the reader while a stream is read. *)
Definition reads_on (max : BinInt.Z) (zon : bytes) (L : lr) (os : list line_out) : Prop :=
  exists t rest, SpecReentry.carries act zinit x0a max zon t os rest /\ bare L /\ lr_hooks L = [zon_hook zon] /\ SpecSession.serves act zinit (lr_rest L) t /\ rd_delim (lr_rest L) = x0a /\ rd_max (lr_rest L) = max.
Lemma on_step max zon L os (s : small) : reads_on max zon L os -> exists o L' os', takes act zinit (beside L s) o (beside L' s) /\ reads_on max zon L' os' /\
  match os with [] => (exists r, o = LErr r EEOF) /\ os' = [] | o1 :: os1 => o = o1 /\ os' = os1 end.
Proof.
  intros (t & rest & CA & BA & HH & SV & DE & MA). destruct (zon_step _ _ _ _ _ _ CA s L BA HH SV DE MA) as (o & L' & t' & os' & rest' & RR & Q & CA' & BA' & HH' & SV' & DE' & MA').
  exists o, L', os'. split; [|split].
  - unfold takes, beside. cbn [fst snd]. destruct s as [w m]. cbn [fst snd]. replace (same_reader L) with L; [exact RR|]. destruct L as [hs r]. unfold bare in BA. cbn in BA |- *. destruct r. cbn in BA. now subst.
  - exists t', rest'. auto 10.
  - destruct os as [|o1 os1]; [|exact Q]. destruct Q as [-> ->]. eauto.
Qed.
Lemma carried_lines delim max zon t os rest : SpecReentry.carries act zinit delim max zon t os rest -> Forall (fun o => match o with LLine l => is_line delim l | LErr _ _ => True | LPanic => False end) os.
Proof. induction 1; auto. Qed.
Lemma on_lines max zon L os : reads_on max zon L os -> Forall (fun o => match o with LLine l => is_line x0a l | LErr _ _ => True | LPanic => False end) os.
Proof. intros (t & rest & CA & _). eapply carried_lines, CA. Qed.

Lemma on_next max zon : forall os (s : small) L, reads_on max zon L os -> exists x s' os' L', gets_out keep s os x s' os' /\ reads_on max zon L' os' /\
  exists f0, forall f g, f0 <= f -> f0 <= g -> a_next act zinit (lift_keep keep) f g (beside L s) = Some (x, beside L' s').
Proof.
  induction os as [|o os IH]; intros s L R; destruct (on_step _ _ _ _ s R) as (o1 & L1 & os1 & T & R1 & Q); apply takes_a_line in T as [f1 T].
  - destruct Q as [(r & ->) ->]. exists (Err EEOF), s, [], L1. split; [constructor|]. split; [exact R1|]. exists (S f1). intros f g F G. destruct f as [|f]; [lia|]. cbn [a_next]. now rewrite T by lia.
  - destruct Q as [-> ->]. pose proof (on_lines _ _ _ _ R) as FA. inversion FA as [|? ? LN _]; subst. destruct o as [l|r e|].
    + destruct LN as (b & -> & N). destruct b as [|b0 b].
      * cbn [app] in *. destruct (on_keep keep s) as [s2 [e|]] eqn:K.
        -- exists (Err e), s2, os, L1. split; [now eapply go_stop|]. split; [exact R1|]. exists (S f1). intros f g F G. destruct f as [|f]; [lia|]. cbn [a_next]. rewrite T by lia.
           cbn [ends_line last negb length Nat.ltb Nat.leb]. unfold on_keep, lift_keep in *. destruct keep as [k|]; [|discriminate].
           destruct s as [w m]. unfold beside in *. cbn [fst snd] in *. rewrite K. reflexivity.
        -- destruct (IH s2 L1 R1) as (x & s' & os' & L' & G & R' & f2 & X). exists x, s', os', L'. split; [eapply go_alive; eassumption|]. split; [exact R'|].
           exists (S (f1 + f2)). intros f g F G2. destruct f as [|f]; [lia|]. cbn [a_next]. rewrite T by lia. cbn [ends_line last negb length Nat.ltb Nat.leb]. specialize (X f g ltac:(lia) ltac:(lia)).
           revert X. unfold on_keep, lift_keep in *. destruct keep as [k|]; [|now injection K as <-]. intro X. destruct s as [w m]. unfold beside in *. cbn [fst snd] in *. rewrite K. exact X.
      * exists (Ok ((b0 :: b) ++ [x0a])), s, os, L1. split; [constructor; cbn; destruct b; discriminate|]. split; [exact R1|]. exists (S f1). intros f g F G. destruct f as [|f]; [lia|]. cbn [a_next].
        rewrite T by lia. rewrite ends_line_snoc. cbn [negb]. replace (1 <? length ((b0 :: b) ++ [x0a]))%nat with true; [reflexivity|]. symmetry. apply Nat.ltb_lt. rewrite app_length. cbn. lia.
    + exists (Err e), s, os, L1. split; [constructor|]. split; [exact R1|]. exists (S f1). intros f g F G. destruct f as [|f]; [lia|]. cbn [a_next]. now rewrite T by lia.
    + contradiction.
Qed.
Lemma on_calls max zon : forall cs os (s : small) L, reads_on max zon L os ->
  exists h s' os' L', serves decode (gets_out keep) s os h s' os' /\ map fst h = cs /\ reads_on max zon L' os' /\
    ev (fun f => a_calls act zinit (lift_decode decode) (lift_keep keep) f cs (beside L s) = Some (map snd h, beside L' s')).
Proof.
  induction cs as [|c cs IH]; intros os s L R; [exists [], s, os, L; repeat split; [constructor|exact R|now exists 0]|].
  assert (RC : reads c -> exists h s' os' L', serves decode (gets_out keep) s os h s' os' /\ map fst h = c :: cs /\ reads_on max zon L' os' /\
    ev (fun f => a_calls act zinit (lift_decode decode) (lift_keep keep) f (c :: cs) (beside L s) = Some (map snd h, beside L' s'))).
  { intro RD. destruct (on_next max zon os s L R) as (x & s1 & os1 & L1 & G & R1 & f1 & X). destruct x as [l|e|].
    - destruct (f_answer decode c l s1) as [s2 a] eqn:FA. destruct (IH os1 s2 L1 R1) as (h & s' & os' & L' & SV & F & R' & f2 & E). exists ((c, a) :: h), s', os', L'.
      split; [eapply sv_line; [exact RD|exact G|eapply f_answer_says; [exact RD|exact FA]|exact SV]|]. split; [cbn; now rewrite F|]. split; [exact R'|].
      exists (f1 + f2). intros f G2. cbn [a_calls map snd]. rewrite (a_call_shape _ _ f c _ RD), X by lia. rewrite lift_answer, FA. cbn [fst snd]. now rewrite E by lia.
    - destruct (IH os1 s1 L1 R1) as (h & s' & os' & L' & SV & F & R' & f2 & E). exists ((c, refuses c e) :: h), s', os', L'.
      split; [eapply sv_fail; eassumption|]. split; [cbn; now rewrite F|]. split; [exact R'|].
      exists (f1 + f2). intros f G2. cbn [a_calls map snd]. rewrite (a_call_shape _ _ f c _ RD), X by lia. rewrite E by lia. now destruct c.
    - destruct (IH os1 s1 L1 R1) as (h & s' & os' & L' & SV & F & R' & f2 & E). exists ((c, crashes c) :: h), s', os', L'.
      split; [eapply sv_panic; eassumption|]. split; [cbn; now rewrite F|]. split; [exact R'|].
      exists (f1 + f2). intros f G2. cbn [a_calls map snd]. rewrite (a_call_shape _ _ f c _ RD), X by lia. rewrite E by lia. now destruct c. }
  destruct c as [sp|sp|sp|sp|t v]; try exact (RC Logic.I). clear RC. destruct s as [w m]. destruct (find_type m (go_name t v)) as [u|] eqn:E.
  - assert (N : ~ no_entry m (go_name t v)) by (rewrite <- find_no_entry; congruence). destruct (IH os (w, m) L R) as (h & s' & os' & L' & SV & F & R' & f2 & EE). exists ((FRegister t v, FADone true) :: h), s', os', L'.
    split; [now apply sv_known|]. split; [cbn; now rewrite F|]. split; [exact R'|]. exists f2. intros f G. cbn [a_calls a_call map snd]. unfold f_register, register, beside. cbn [fst snd].
    rewrite E. specialize (EE f G). unfold beside in *. cbn [fst snd] in *. now rewrite EE.
  - pose proof E as E0. apply find_no_entry in E. destruct (IH os (w, m ++ [(go_name t v, t)]) L R) as (h & s' & os' & L' & SV & F & R' & f2 & EE). exists ((FRegister t v, FADone false) :: h), s', os', L'.
    split; [now apply sv_new|]. split; [cbn; now rewrite F|]. split; [exact R'|]. exists f2. intros f G. cbn [a_calls a_call map snd]. unfold f_register, register, beside. cbn [fst snd].
    rewrite E0. specialize (EE f G). unfold beside in *. cbn [fst snd] in *. now rewrite EE.
Qed.
End Plain.
End Reentry.
