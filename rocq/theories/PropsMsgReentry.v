(** Property C147: callbacks of the message writers that write messages.  Specification: SpecMsgReentry.v.  Proofs: MsgReentryFacts.v. *)
From Verif Require Import Base LineReader NmdcText NmdcMessage LineWriter AdcValue AdcMessage AdcPacket SpecWriter WriterReentry MsgReentry SpecWriterReentry WriterReentryFacts
  SpecMsgReentry MsgReentryFacts.

(** A message callback (OnMessage) that writes other messages with WriteMsg: these are written in order up to the first error, and then
    the message itself if the callback passes it.  All texts are those of the encoder. *)
Theorem C147_message M dst dstep room (enc : M -> list bop * option error) early f pre v m (l : writer unit dst) b :
  wr_hooks l = [] -> wr_open l = true -> wr_err l = None -> good_buf b ->
  let x := mkMwriter l [] [first pre v] b in
  match messages_until dstep enc (match v m with HPass => pre m ++ [m] | _ => pre m end) l with
  | WRet (e, l') => exists b', good_buf b' /\ m_do dstep room enc early (S (S (S f))) false (TMsg m) x =
      Some (WRet (match e, v m with None, HErr e' => Some e' | _, _ => e end, false, mkMwriter l' [] [first pre v] b'))
  | WPan => m_do dstep room enc early (S (S (S f))) false (TMsg m) x = Some WPan
  | WStuck => m_do dstep room enc early (S (S (S f))) false (TMsg m) x = None
  end.
Proof. intros Hh Ho He G. cbv zeta. apply message_callback; [split; auto|exact He|exact G]. Qed.
Print Assumptions C147_message.

(** "The same for a line callback: the messages it writes come first, and then the line it passes" does not hold.  The line is in the
    buffer that the other messages are encoded in. *)
Definition pairs (m : bytes * bytes) : list bop * option error := (nmdc_ops (fst m) [snd m], None).
Definition mre_step (u : unit) (o : dop) : unit * list bytes := (u, match o with DWrite p => [p] | _ => [] end).
Theorem C147_line_refuted : ~ (forall M dst dstep room (enc : M -> list bop * option error) early f pre m t (l : writer unit dst) b l',
  wr_hooks l = [] -> wr_open l = true -> wr_err l = None -> good_buf b -> built (fst (enc m)) [] = Some t -> snd (enc m) = None ->
  messages_until dstep enc (pre t ++ [m]) l = WRet (None, l') ->
  exists b', m_do dstep room enc early (S (S (S (S f)))) false (TMsg m) (mkMwriter l [first pre (fun _ => HPass)] [] b) =
    Some (WRet (None, false, mkMwriter l' [first pre (fun _ => HPass)] [] b'))).
Proof.
  intros H. specialize (H (bytes * bytes)%type unit mre_step (fun _ n => n) pairs true 0%nat (fun _ => [(B "MyNick", B "b")]) ([], B "<a> a long line")
    (B "<a> a long line|") (new_writer [] 0) no_mbuf).
  match type of H with forall l', _ -> _ -> _ -> _ -> _ -> _ -> ?a = _ -> _ => let v := eval vm_compute in a in match v with WRet (_, ?l) => specialize (H l eq_refl eq_refl eq_refl ltac:(split; cbn; lia) eq_refl eq_refl eq_refl) end end.
  destruct H as [b' H]. vm_compute in H. discriminate.
Qed.
Print Assumptions C147_line_refuted.
(** What happens instead: the messages of the callback are written as they are; over the line are then their texts ([smear]), until one
    takes a new array, and this is what is written if the callback passes it.  The room [c] is that of the array the line is in. *)
Theorem C147_line M dst dstep room (enc : M -> list bop * option error) early f pre v m t (l : writer unit dst) b :
  wr_hooks l = [] -> wr_open l = true -> wr_err l = None -> good_buf b -> built (fst (enc m)) [] = Some t -> snd (enc m) = None ->
  let x := mkMwriter l [first pre v] [] b in
  match messages_until dstep enc (pre t) l with
  | WRet (Some e, l') => exists b', good_buf b' /\ m_do dstep room enc early (S (S (S (S f)))) false (TMsg m) x =
      Some (WRet (Some e, false, mkMwriter (set_error e l') [first pre v] [] b'))
  | WRet (None, l') => exists b' c, good_buf b' /\ (length t <= c)%nat /\
      ((needed (fst (enc m)) 0 <= length (b_array (mb_at b) b))%nat -> c = length (b_array (mb_at b) b)) /\
      m_do dstep room enc early (S (S (S (S f)))) false (TMsg m) x =
        match v t with
        | HPass => match write_line dstep tt (smear enc c (pre t) t) l' with
                   | WRet (e, _, l2) => Some (WRet (e, false, mkMwriter l2 [first pre v] [] b'))
                   | WPan => Some WPan
                   | WStuck => None
                   end
        | HDrop => Some (WRet (None, false, mkMwriter l' [first pre v] [] b'))
        | HErr e => Some (WRet (Some e, false, mkMwriter (set_error e l') [first pre v] [] b'))
        end
  | WPan => m_do dstep room enc early (S (S (S (S f)))) false (TMsg m) x = Some WPan
  | WStuck => m_do dstep room enc early (S (S (S (S f)))) false (TMsg m) x = None
  end.
Proof. intros Hh Ho He G Eb Ee. cbv zeta. apply line_callback; auto. split; auto. Qed.
Print Assumptions C147_line.
(** All texts are over the line if they need no more room; the line is kept if the first message asks for more before it writes. *)
Theorem C147_smeared M (enc : M -> list bop * option error) c ms ts line :
  Forall2 (fun m t => built (fst (enc m)) [] = Some t /\ (needed (fst (enc m)) 0 <= c)%nat) ms ts -> smear enc c ms line = fold_left overwritten ts line.
Proof. apply smear_all. Qed.
Print Assumptions C147_smeared.
Theorem C147_unsmeared M (enc : M -> list bop * option error) c m k os ms line :
  fst (enc m) = BGrow k :: os \/ (exists p, fst (enc m) = BPut p :: os /\ length p = k) -> (c < k)%nat -> smear enc c (m :: ms) line = line.
Proof. apply smear_none. Qed.
Print Assumptions C147_unsmeared.

(** Line callbacks that write no messages (they may call WriteLine, Flush and Err) see the text of the message, and WriteMsg is WriteLine
    of this text. *)
Theorem C147_calm W M dst dstep room (enc : M -> list bop * option error) early f w m t (x : @mwriter W M dst) :
  (forall h w d, In h (mw_lhooks x) -> calm (h w d)) -> good_buf (mw_buf x) -> mw_mhooks x = [] -> (early = true -> wr_err (mw_line x) = None) ->
  built (fst (enc m)) [] = Some t -> snd (enc m) = None ->
  exists b', good_buf b' /\ m_do dstep room enc early (S f) w (TMsg m) x = m_do dstep room enc early f w (TLine (Own t)) (mw_mem b' x).
Proof. apply message_calm. Qed.
Print Assumptions C147_calm.

(** And this is WriteLine of C146. *)
Theorem C147_calm_line W M dst dinit dstep room (enc : M -> list bop * option error) early f w d (x : @mwriter W M dst) : (forall h w d, In h (mw_lhooks x) -> calm (h w d)) ->
  m_do dstep room enc early f w (TLine (Own d)) x =
  match re_write dinit dstep f w d (mkLwriter (map line_hook (mw_lhooks x)) (mw_line x)) with
  | Some (WRet (e, w', s)) => Some (WRet (e, w', mw_with (lw_rest s) x))
  | Some WPan => Some WPan
  | _ => None
  end.
Proof. destruct x as [l lh mh b]. intros Hc. destruct (line_agree dstep room enc early dinit lh mh b Hc f w d l) as [A _]. rewrite A. cbn [mw_lhooks mw_line]. now destruct (re_write _ _ _ _ _ _) as [[[[e w'] s]| |]|]. Qed.
Print Assumptions C147_calm_line.

(** A message that cannot be encoded: nothing is written and the error is not kept.  An earlier error of the writer comes first in WriteMsg
    ([early]), the error of the encoder in WritePacket. *)
Theorem C147_failed W M dst dstep room (enc : M -> list bop * option error) (early : bool) f w m (x : @mwriter W M dst) :
  mw_mhooks x = [] -> good_buf (mw_buf x) -> (built (fst (enc m)) [] = None \/ snd (enc m) <> None) ->
  match (if early then wr_err (mw_line x) else None), built (fst (enc m)) [] with
  | Some e, _ => m_do dstep room enc early (S f) w (TMsg m) x = Some (WRet (Some e, w, x))
  | None, None => m_do dstep room enc early (S f) w (TMsg m) x = Some WPan
  | None, Some _ => exists b', good_buf b' /\ m_do dstep room enc early (S f) w (TMsg m) x = Some (WRet (snd (enc m), w, mw_mem b' x))
  end.
Proof.
  intros Hm G N. pose proof (encoded room (fst (enc m)) (mw_buf x) G) as B0. cbn [m_do]. destruct (if early then wr_err (mw_line x) else None); [reflexivity|].
  rewrite Hm. cbn [run_mprogs]. destruct (built (fst (enc m)) []) as [t|]; [|now rewrite B0]. destruct B0 as (b' & B1 & B2 & _). exists b'. split; [exact B2|]. rewrite B1.
  destruct (snd (enc m)) as [e|]; [reflexivity|]. destruct N; congruence.
Qed.
Print Assumptions C147_failed.
(** WritePacket of a packet that cannot be encoded on a writer that has failed. *)
Example C147_failed_case :
  let go := fun early => m_do (W := unit) mre_step (fun _ n => n) (fun p : bytes => ([BPut p], Some (EText "bad"))) early 3 tt (TMsg (B "IMSG ")) in
  let x := mkMwriter (set_error (EText "old") (new_writer [] 0)) [] [] no_mbuf in
  go false x = Some (WRet (Some (EText "bad"), tt, mw_mem (mkMbuf [[]; B "IMSG "] 1 5) x)) /\ go true x = Some (WRet (Some (EText "old"), tt, x)).
Proof. split; vm_compute; reflexivity. Qed.

(** A message callback that writes a message for every message never returns. *)
Theorem C147_recursion W M dst dstep room (enc : M -> list bop * option error) early (g : W -> M -> M) k (l : writer unit dst) lh mh b f w m : wr_err l = None ->
  m_do dstep room enc early f w (TMsg m) (mkMwriter l lh ((fun w m => MMsg w (g w m) (k w m)) :: mh) b) = None.
Proof. intros E. now apply message_recursion. Qed.
Print Assumptions C147_recursion.

(** The texts are those of Marshal and MarshalPacketADC, however the payload is divided into writes. *)
Theorem C147_nmdc c m ps : msg_marshal c m = Ok (concat ps) ->
  built (nmdc_ops (msg_type m) ps) [] = match NmdcMessage.marshal c m with Ok b => Some b | _ => None end.
Proof.
  intros H. unfold NmdcMessage.marshal, marshal_to. rewrite H, nmdc_built. cbn [bind app]. unfold msg_head. destruct (concat ps) as [|x q].
  - destruct (msg_type m) as [|y t]; [reflexivity|]. cbn [app]. 
    assert (X : removelast (("$"%byte :: y :: t) ++ [" "%byte]) = "$"%byte :: y :: t) by apply removelast_last.
    cbn in *. injection X as X. now rewrite X.
  - reflexivity.
Qed.
Print Assumptions C147_nmdc.
Theorem C147_adc p ps : AdcMessage.marshal (message p) = concat ps ->
  built (adc_ops (kind_of p :: cmd (message p) ++ header p) ps) [] = Some (marshal_packet p).
Proof. intros H. unfold marshal_packet. rewrite H, adc_built by discriminate. now destruct (concat ps). Qed.
Print Assumptions C147_adc.

(** Cases. *)
Definition mre_room (cap need : nat) : nat := (2 * cap + need)%nat.
Notation mre := (m_do mre_step mre_room pairs true 9 false).
(** A message callback that announces a chat message. *)
Example C147_message_case :
  let pre := fun m : bytes * bytes => [(B "MyNick", B "b")] in
  exists l b, mre (TMsg ([], B "<a> a long line")) (mkMwriter (new_writer [] 0) [] [first pre (fun _ => HPass)] no_mbuf) =
      Some (WRet (None, false, mkMwriter l [] [first pre (fun _ => HPass)] b)) /\ wr_buf l = B "$MyNick b|<a> a long line|".
Proof. do 2 eexists. split; [vm_compute; reflexivity|reflexivity]. Qed.
(** The same in a line callback; then with a longer message, for which the buffer gets a new array. *)
Example C147_line_case :
  let pre := fun _ : bytes => [(B "MyNick", B "b")] in
  let long := fun _ : bytes => [(B "GetNickListAndMore", B "b")] in
  (exists l b, mre (TMsg ([], B "<a> a long line")) (mkMwriter (new_writer [] 0) [first pre (fun _ => HPass)] [] no_mbuf) =
      Some (WRet (None, false, mkMwriter l [first pre (fun _ => HPass)] [] b)) /\ wr_buf l = B "$MyNick b|$MyNick b| line|") /\
  (exists l b, mre (TMsg ([], B "<a> hi")) (mkMwriter (new_writer [] 0) [first long (fun _ => HPass)] [] no_mbuf) =
      Some (WRet (None, false, mkMwriter l [first long (fun _ => HPass)] [] b)) /\ wr_buf l = B "$GetNickListAndMore b|<a> hi|").
Proof. cbv zeta. split; do 2 eexists; (split; [vm_compute; reflexivity|reflexivity]). Qed.
(** With the room of the first: all of the short one and nothing of the long one are over the line. *)
Example C147_smeared_case :
  Forall2 (fun m t => built (fst (pairs m)) [] = Some t /\ (needed (fst (pairs m)) 0 <= 16)%nat) [(B "MyNick", B "b")] [B "$MyNick b|"] /\
  smear pairs 16 [(B "MyNick", B "b")] (B "<a> a long line|") = B "$MyNick b| line|" /\
  (exists os, fst (pairs (B "GetNickListAndMore", B "b")) = BGrow 21 :: os) /\ smear pairs 16 [(B "GetNickListAndMore", B "b")] (B "<a> a long line|") = B "<a> a long line|" /\
  smear pairs 16 [(B "MyNick", B "a long name")] (B "<a> a long line|") = B "$MyNick ng line|".
Proof.
  split; [constructor; [split; [reflexivity|cbn; lia]|constructor]|]. split; [reflexivity|]. split; [eexists; reflexivity|]. split; reflexivity.
Qed.
(** A line callback that writes a line of its own and flushes. *)
Example C147_calm_case :
  let h : bool -> bytes -> mprog bool (bytes * bytes) := fun busy d => if busy then MReturn true HPass else MLine true (B "$Key x|") (fun _ _ => MFlush (fun _ => MReturn false HPass)) in
  (forall w d, calm (h w d)) /\
  exists l b, mre (TMsg ([], B "<a> hi")) (mkMwriter (new_writer [] 0) [h] [] no_mbuf) = Some (WRet (None, false, mkMwriter l [h] [] b)) /\
    delivered (cn_trace (wr_conn l)) = B "$Key x|" /\ wr_buf l = B "<a> hi|".
Proof.
  cbv zeta. split.
  - intros [|] d; repeat constructor.
  - do 2 eexists. split; [vm_compute; reflexivity|]. split; reflexivity.
Qed.
