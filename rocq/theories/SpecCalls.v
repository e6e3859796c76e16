(** Independent specification of the calls of the NMDC message reader on a stream of lines, for any
    callbacks: ReadMsg, ReadMsgTo and ReadMsgToAny, in any order. *)
From Verif Require Import Base Utf8 SpecText SpecHash SpecNmdc SpecRead NmdcText NmdcMessage SpecCommand SpecFrame SpecReuse SpecNmdcLeft SpecNmdcUnknown LineReader NmdcReader SpecReader SpecStream.

(** Callbacks are asked in order until one does not let the message pass. *)
Inductive polled {W} : list (W -> W * hook_res) -> W -> W -> hook_res -> Prop :=
| po_all w : polled [] w w HPass
| po_next h hs w w1 w2 v : h w = (w1, HPass) -> polled hs w1 w2 v -> polled (h :: hs) w w2 v
| po_stop h hs w w1 v : h w = (w1, v) -> v <> HPass -> polled (h :: hs) w w1 v.

(** What a call may store messages in: nothing or one message (ReadMsg, ReadMsgTo), or some of
    the messages given to it (ReadMsgToAny). *)
Inductive target := One (o : option msg) | Many (ms : list msg).
(** A message for lines of the type [t] (empty: chat). *)
Definition fits (t : bytes) (m : msg) : Prop := command m = t /\ (t = [] -> exists c, m = MChat c).
(** A message that is passed over in the search for one that fits. *)
Definition passed_over (t : bytes) (m : msg) : Prop := ~ fits t m /\ forall x d, m <> MRaw x d.
(** The message a line of type [t] is stored in, its position, and the target with a new value. *)
Inductive picks (t : bytes) : target -> nat -> msg -> (msg -> target) -> Prop :=
| pi_new : picks t (One None) 0 (new_message t) (fun m => One (Some m))
| pi_own m : fits t m -> picks t (One (Some m)) 0 m (fun m => One (Some m))
| pi_many a m b : Forall (passed_over t) a -> fits t m -> picks t (Many (a ++ m :: b)) (length a) m (fun m' => Many (a ++ m' :: b)).
(** There is none: the line is refused, in favour of the type in the error. *)
Inductive refuses (t : bytes) : target -> bytes -> Prop :=
| re_own m : ~ fits t m -> refuses t (One (Some m)) (command m)
| re_none m ms : Forall (passed_over t) (m :: ms) -> refuses t (Many (m :: ms)) (command m)
| re_raw a x d b : Forall (passed_over t) a -> ~ fits t (MRaw x d) -> refuses t (Many (a ++ MRaw x d :: b)) x.

(** Storing the arguments [a] in the message [o] (C114).  When this fails, the message has the
    values it got before (C123); C124 says when the error is that of an unknown encoding. *)
Inductive attempt (dec : codec) (o : msg) (a : bytes) : msg -> res unit -> Prop :=
| at_stored m : reads_over dec o a m -> attempt dec o a m (Ok tt)
| at_failed m e : left_by dec o a m -> (forall text, e = EUnknownEnc text <-> unknown_in dec o a text) -> attempt dec o a m (Err e)
| at_crash m s : o = MSearch s -> search_crash dec a -> attempt dec o a m Panic.

(** The same with the callback [f] for unknown encodings: the state of the callback, the decoder
    for the rest of the call and the one that is kept, the message and the result, or the error of
    the callback.  A decoder gets the message of the first attempt, but if the arguments can be
    stored, the message is as if there had been none. *)
Inductive decodes {W} (f : option (W -> bytes -> W * (codec + error))) (w : W) (dec kept : codec) (o : msg) (a : bytes)
  : W -> codec -> codec -> msg -> error + res unit -> Prop :=
| de_plain m r : attempt dec o a m r -> (f <> None -> forall t, r <> Err (EUnknownEnc t)) -> decodes f w dec kept o a w dec kept m (inr r)
| de_refused g text m w' e : f = Some g -> attempt dec o a m (Err (EUnknownEnc text)) -> g w text = (w', inr e) ->
    decodes f w dec kept o a w' dec kept m (inl e)
| de_decoder g text m1 w' d m r : f = Some g -> attempt dec o a m1 (Err (EUnknownEnc text)) -> g w text = (w', inl (Some d)) ->
    attempt (Some d) m1 a m r -> (r = Ok tt -> reads_over (Some d) o a m) -> decodes f w dec kept o a w' (Some d) (Some d) m (inr r)
| de_repaired g text m1 w' a' m r : f = Some g -> attempt dec o a m1 (Err (EUnknownEnc text)) -> g w text = (w', inl None) ->
    repaired a a' -> attempt None m1 a' m r -> decodes f w dec kept o a w' None kept m (inr r).

(** The state between two lines: of the callbacks, the decoder for this call, the one that is kept
    for the next call, and the target. *)
Record at_line (W : Type) := mkAt { al_w : W; al_now : codec; al_kept : codec; al_target : target }.
Arguments mkAt {W}. Arguments al_w {W}. Arguments al_now {W}. Arguments al_kept {W}. Arguments al_target {W}.
(** The effect of a line on the call. *)
Inductive verdict := VNext | VDone (i : nat) | VErr (e : error) | VCrash.

(** The errors for command names. *)
Inductive bad_name (limit : Z) : bytes -> error -> Prop :=
| bn_empty : bad_name limit [] (EProtocol "command name is empty")
| bn_long t : t <> [] -> (limit < Z.of_nat (length t))%Z -> bad_name limit t (EProtocol "command name is too long")
| bn_chars t : t <> [] -> (Z.of_nat (length t) <= limit)%Z -> ~ Forall (fun b => In b name_chars) t ->
    bad_name limit t (EProtocol "command name should be in acsii").
(** The body of a line has the command and the arguments, and the raw callbacks say [v]. *)
Definition heard {W} (c : ncfg W) (w : W) (body : bytes) (cmd : option bytes) (a : bytes) (w' : W) (v : hook_res) : Prop :=
  ~ In x00 body /\ parsed body cmd a /\ polled (map (fun h w => h w cmd a) (nc_raw c)) w w' v.
(** The type of messages for a legal command. *)
Definition of_type (limit : Z) (cmd : option bytes) (t : bytes) : Prop :=
  match cmd with None => t = [] | Some c => c = t /\ command_name limit c end.

(** What follows the decoding: the verdict and the message, which callbacks may have changed. *)
Inductive concludes {W} (c : ncfg W) (body : bytes) (i : nat) (w : W) (m : msg) : error + res unit -> verdict -> W -> msg -> Prop :=
| cc_encoding e : concludes c body i w m (inl e) (VErr e) w m
| cc_crash : concludes c body i w m (inr Panic) VCrash w m
| cc_error e : nc_unmarshal_err c = None -> concludes c body i w m (inr (Err e)) (VErr e) w m
| cc_ignored f e w' x : nc_unmarshal_err c = Some f -> f w body e = (w', (false, x)) -> concludes c body i w m (inr (Err e)) VNext w' m
| cc_tolerated f e w' : nc_unmarshal_err c = Some f -> f w body e = (w', (true, None)) -> concludes c body i w m (inr (Err e)) (VDone i) w' m
| cc_replaced f e w' e' : nc_unmarshal_err c = Some f -> f w body e = (w', (true, Some e')) -> concludes c body i w m (inr (Err e)) (VErr e') w' m
| cc_message w' m' v : polled (nc_msg c) (w, m) (w', m') v ->
    concludes c body i w m (inr (Ok tt)) (match v with HPass => VDone i | HDrop => VNext | HErr e => VErr e end) w' m'.

(** One line. *)
Inductive handles {W} (c : ncfg W) (s : at_line W) : bytes -> verdict -> at_line W -> Prop :=
| ha_silent : nc_keep_alive c = None -> handles c s (B "|") VNext s
| ha_alive f w' e : nc_keep_alive c = Some f -> f (al_w s) = (w', e) ->
    handles c s (B "|") (match e with None => VNext | Some e => VErr e end) (mkAt w' (al_now s) (al_kept s) (al_target s))
| ha_nul body : In x00 body -> handles c s (body ++ B "|") (VErr (EProtocol "message should not contain null characters")) s
| ha_dropped body cmd a w' : heard c (al_w s) body cmd a w' HDrop ->
    handles c s (body ++ B "|") VNext (mkAt w' (al_now s) (al_kept s) (al_target s))
| ha_stopped body cmd a w' e : heard c (al_w s) body cmd a w' (HErr e) ->
    handles c s (body ++ B "|") (VErr e) (mkAt w' (al_now s) (al_kept s) (al_target s))
| ha_name body t a w' e : heard c (al_w s) body (Some t) a w' HPass -> bad_name (nc_max_cmd c) t e ->
    handles c s (body ++ B "|") (VErr e) (mkAt w' (al_now s) (al_kept s) (al_target s))
| ha_type body cmd t a w' x : heard c (al_w s) body cmd a w' HPass -> of_type (nc_max_cmd c) cmd t -> refuses t (al_target s) x ->
    handles c s (body ++ B "|") (VErr (EUnexpectedCmd x t a)) (mkAt w' (al_now s) (al_kept s) (al_target s))
| ha_decode body cmd t a w1 i o put w2 now kept m r v w3 m' : heard c (al_w s) body cmd a w1 HPass -> of_type (nc_max_cmd c) cmd t ->
    picks t (al_target s) i o put -> decodes (nc_unknown c) w1 (al_now s) (al_kept s) o a w2 now kept m r -> concludes c body i w2 m r v w3 m' ->
    handles c s (body ++ B "|") v (mkAt w3 now kept (put m')).

(** One call: lines until one ends it. *)
Inductive one_call {W} (c : ncfg W) : at_line W -> list bytes -> verdict -> at_line W -> list bytes -> Prop :=
| oc_end s : one_call c s [] (VErr EEOF) s []
| oc_next s l ls s1 v s2 ls2 : handles c s l VNext s1 -> one_call c s1 ls v s2 ls2 -> one_call c s (l :: ls) v s2 ls2
| oc_done s l ls v s1 : handles c s l v s1 -> v <> VNext -> one_call c s (l :: ls) v s1 ls.

(** The calls of a user of the package. *)
Inductive call := CNew | CInto (m : msg) | CAny (ms : list msg).
(** What they get back, with the messages passed as arguments afterwards. *)
Inductive answer := RNew (r : res (option msg)) | RInto (r : res unit) (m : msg) | RAny (r : res (option nat)) (ms : list msg).
(** The target of a call. *)
Definition call_target (k : call) : target := match k with CNew => One None | CInto m => One (Some m) | CAny ms => Many ms end.
(** The error or crash of a call, or its value. *)
Inductive gives_back {A} (x : nat -> A) : verdict -> res A -> Prop :=
| gb_done i : gives_back x (VDone i) (Ok (x i))
| gb_err e : gives_back x (VErr e) (Err e)
| gb_crash : gives_back x VCrash Panic.
(** What a call gives back for its verdict and the target afterwards. *)
Inductive answers : call -> verdict -> target -> answer -> Prop :=
| an_new v o r : gives_back (fun _ => o) v r -> answers CNew v (One o) (RNew r)
| an_into m v m' r : gives_back (fun _ => tt) v r -> answers (CInto m) v (One (Some m')) (RInto r m')
| an_any ms v ms' r : gives_back Some v r -> answers (CAny ms) v (Many ms') (RAny r ms').
(** The answers of several calls.  Without messages to store in, a call crashes at once. *)
Inductive calls_on {W} (c : ncfg W) : W -> codec -> list bytes -> list call -> list answer -> W -> codec -> Prop :=
| co_end w dec ls : calls_on c w dec ls [] [] w dec
| co_empty w dec ls ks os w2 dec2 : calls_on c w dec ls ks os w2 dec2 -> calls_on c w dec ls (CAny [] :: ks) (RAny Panic [] :: os) w2 dec2
| co_call w dec ls k v s ls1 o ks os w2 dec2 : k <> CAny [] -> one_call c (mkAt w dec dec (call_target k)) ls v s ls1 -> answers k v (al_target s) o ->
    calls_on c (al_w s) (al_kept s) ls1 ks os w2 dec2 -> calls_on c w dec ls (k :: ks) (o :: os) w2 dec2.

(** Making the calls. *)
Definition do_call {W Z} (act : Z -> zaction Z) (fuel : nat) (k : call) (w : W) (R : nreader W Z) : option (answer * W * nreader W Z) :=
  match k with
  | CNew => match read_msg act fuel w R with Some (r, w', R') => Some (RNew r, w', R') | None => None end
  | CInto m => match read_msg_to act fuel m w R with Some (r, m', w', R') => Some (RInto r m', w', R') | None => None end
  | CAny ms => match read_msg_any act fuel ms w R with Some (r, ms', w', R') => Some (RAny r ms', w', R') | None => None end
  end.
(** Making several calls. *)
Fixpoint do_calls {W Z} (act : Z -> zaction Z) (fuel : nat) (ks : list call) (w : W) (R : nreader W Z) : option (list answer * W * nreader W Z) :=
  match ks with
  | [] => Some ([], w, R)
  | k :: ks => match do_call act fuel k w R with
               | None => None
               | Some (o, w1, R1) => match do_calls act fuel ks w1 R1 with None => None | Some (os, w2, R2) => Some (o :: os, w2, R2) end
               end
  end.
(** The messages given to a call have hashes of the right size. *)
Definition call_sized (k : call) : Prop := match k with CNew => True | CInto m => sized m | CAny ms => Forall sized ms end.

(** Callbacks cannot change the size of a hash in a message. *)
Definition typed {W} (c : ncfg W) : Prop := Forall (fun h => forall x, sized (snd x) -> sized (snd (fst (h x)))) (nc_msg c).

(** A decoder whose texts are always UTF-8. *)
Definition proper (d : bytes -> option bytes) : Prop := forall s t, d s = Some t -> utf8_text t.
(** The callbacks without the one for unknown encodings. *)
Definition without {W} (c : ncfg W) : ncfg W := mkNcfg (nc_max_cmd c) (nc_keep_alive c) (nc_raw c) None (nc_unmarshal_err c) (nc_msg c).
