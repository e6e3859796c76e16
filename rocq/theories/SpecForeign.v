(** Independent specification of the calls of the NMDC message reader for messages of a program, and
    of SetDecoder during calls. *)
From Verif Require Import Base Utf8 SpecText NmdcText NmdcMessage LineReader SpecReader SpecStream SpecCalls NmdcProgram NmdcForeign.

Section Spec.
Context {W A Z : Type} (act : Z -> zaction Z).
Variable M : rmethods W A.

(** What a call may store a line in: nothing yet or one message, or some messages. *)
Inductive goal := GOne (o : option A) | GMany (l : list A).
(** A message for lines of the type [t] (empty: chat).  Only *ChatMessage is for chat. *)
Definition takes (t : bytes) (a : A) : Prop := match t with [] => r_kind M a = KChat | _ => r_type M a = t end.
(** A message that is passed over in the search for one that takes the line. *)
Definition passes (t : bytes) (a : A) : Prop := ~ takes t a /\ r_kind M a <> KRaw.
(** The message a line of type [t] is stored in, its position, and the goal with a new value. *)
Inductive selects (t : bytes) : goal -> nat -> A -> (A -> goal) -> Prop :=
| se_new : t <> [] -> selects t (GOne None) 0 (r_new M t) (fun a => GOne (Some a))
| se_chat : t = [] -> selects t (GOne None) 0 (r_chat M) (fun a => GOne (Some a))
| se_own a : takes t a -> selects t (GOne (Some a)) 0 a (fun a => GOne (Some a))
| se_many l a r : Forall (passes t) l -> takes t a -> selects t (GMany (l ++ a :: r)) (length l) a (fun a' => GMany (l ++ a' :: r)).
(** There is none: the line is refused, in favour of the type in the error. *)
Inductive rejects (t : bytes) : goal -> bytes -> Prop :=
| rj_own a : ~ takes t a -> rejects t (GOne (Some a)) (r_type M a)
| rj_none a l : Forall (passes t) (a :: l) -> rejects t (GMany (a :: l)) (r_type M a)
| rj_raw l a r : Forall (passes t) l -> r_kind M a = KRaw -> ~ takes t a -> rejects t (GMany (l ++ a :: r)) (r_type M a).

(** Storing the arguments [d] in the message [o]: UnmarshalNMDC is called, and once more after the
    error of an unknown encoding if there is a callback [f] for it that does not fail: with the
    decoder it gives, which is kept, or without a decoder on the text made valid. *)
Inductive stores (f : option (env W -> bytes -> env W * (codec + error))) (dec : codec) (o : A) (d : bytes) (s : env W)
  : env W -> codec -> A -> error + res unit -> Prop :=
| st_once s1 a r : r_unmarshal M o dec s d = (s1, a, r) -> (f <> None -> forall t, r <> Err (EUnknownEnc t)) -> stores f dec o d s s1 dec a (inr r)
| st_refused g text s1 a s2 e : f = Some g -> r_unmarshal M o dec s d = (s1, a, Err (EUnknownEnc text)) -> g s1 text = (s2, inr e) ->
    stores f dec o d s s2 dec a (inl e)
| st_decoder g text s1 a1 w2 kept new s3 a r : f = Some g -> r_unmarshal M o dec s d = (s1, a1, Err (EUnknownEnc text)) -> g s1 text = ((w2, kept), inl (Some new)) ->
    r_unmarshal M a1 (Some new) (w2, Some new) d = (s3, a, r) -> stores f dec o d s s3 (Some new) a (inr r)
| st_repaired g text s1 a1 s2 d' s3 a r : f = Some g -> r_unmarshal M o dec s d = (s1, a1, Err (EUnknownEnc text)) -> g s1 text = (s2, inl None) ->
    repaired d d' -> r_unmarshal M a1 None s2 d' = (s3, a, r) -> stores f dec o d s s3 None a (inr r).

(** What follows: the verdict and the message, which callbacks may have changed. *)
Inductive ends (c : fcfg W A) (body : bytes) (i : nat) (s : env W) (a : A) : error + res unit -> verdict -> env W -> A -> Prop :=
| ed_encoding e : ends c body i s a (inl e) (VErr e) s a
| ed_crash : ends c body i s a (inr Panic) VCrash s a
| ed_error e : fc_unmarshal_err c = None -> ends c body i s a (inr (Err e)) (VErr e) s a
| ed_ignored f e s' x : fc_unmarshal_err c = Some f -> f s body e = (s', (false, x)) -> ends c body i s a (inr (Err e)) VNext s' a
| ed_tolerated f e s' : fc_unmarshal_err c = Some f -> f s body e = (s', (true, None)) -> ends c body i s a (inr (Err e)) (VDone i) s' a
| ed_replaced f e s' e' : fc_unmarshal_err c = Some f -> f s body e = (s', (true, Some e')) -> ends c body i s a (inr (Err e)) (VErr e') s' a
| ed_message s' a' v : polled (fc_msg c) (s, a) (s', a') v ->
    ends c body i s a (inr (Ok tt)) (match v with HPass => VDone i | HDrop => VNext | HErr e => VErr e end) s' a'.

(** The body of a line has the command and the arguments, and the raw callbacks say [v]. *)
Definition hears (c : fcfg W A) (s : env W) (body : bytes) (cmd : option bytes) (d : bytes) (s' : env W) (v : hook_res) : Prop :=
  ~ In x00 body /\ parsed body cmd d /\ polled (map (fun h s => h s cmd d) (fc_raw c)) s s' v.

(** One line: [line c s dec g l v s' dec' g'].  The decoder [dec] is that of the call. *)
Inductive line (c : fcfg W A) (s : env W) (dec : codec) (g : goal) : bytes -> verdict -> env W -> codec -> goal -> Prop :=
| li_open l : (forall body, l <> body ++ B "|") -> line c s dec g l (VErr (EProtocol "no message delimiter")) s dec g
| li_silent : fc_keep_alive c = None -> line c s dec g (B "|") VNext s dec g
| li_alive f s' e : fc_keep_alive c = Some f -> f s = (s', e) ->
    line c s dec g (B "|") (match e with None => VNext | Some e => VErr e end) s' dec g
| li_nul body : In x00 body -> line c s dec g (body ++ B "|") (VErr (EProtocol "message should not contain null characters")) s dec g
| li_dropped body cmd d s' : hears c s body cmd d s' HDrop -> line c s dec g (body ++ B "|") VNext s' dec g
| li_stopped body cmd d s' e : hears c s body cmd d s' (HErr e) -> line c s dec g (body ++ B "|") (VErr e) s' dec g
| li_name body t d s' e : hears c s body (Some t) d s' HPass -> bad_name (fc_max_cmd c) t e -> line c s dec g (body ++ B "|") (VErr e) s' dec g
| li_type body cmd t d s' x : hears c s body cmd d s' HPass -> of_type (fc_max_cmd c) cmd t -> rejects t g x ->
    line c s dec g (body ++ B "|") (VErr (EUnexpectedCmd x t d)) s' dec g
| li_stored body cmd t d s1 i o put s2 dec' a r v s3 a' : hears c s body cmd d s1 HPass -> of_type (fc_max_cmd c) cmd t ->
    selects t g i o put -> stores (fc_unknown c) dec o d s1 s2 dec' a r -> ends c body i s2 a r v s3 a' ->
    line c s dec g (body ++ B "|") v s3 dec' (put a').

(** ReadLine of the line reader, with its own callbacks. *)
Definition line_read (s : env W) (r : reader (env W) Z) (o : line_out) (s' : env W) (r' : reader (env W) Z) : Prop := exists f, read_line act f s r = Some (o, s', r').
(** Lines until one ends the call: [lines c s dec g r ls v s' g' r'], where [ls] are the lines. *)
Inductive lines (c : fcfg W A) : env W -> codec -> goal -> reader (env W) Z -> list bytes -> verdict -> env W -> goal -> reader (env W) Z -> Prop :=
| ls_error s dec g r o e s1 r1 : line_read s r (LErr o e) s1 r1 -> lines c s dec g r [] (VErr e) s1 g r1
| ls_panic s dec g r s1 r1 : line_read s r LPanic s1 r1 -> lines c s dec g r [] VCrash s1 g r1
| ls_next s dec g r l s1 r1 s2 dec2 g2 ls v s3 g3 r3 : line_read s r (LLine l) s1 r1 -> line c s1 dec g l VNext s2 dec2 g2 ->
    lines c s2 dec2 g2 r1 ls v s3 g3 r3 -> lines c s dec g r (l :: ls) v s3 g3 r3
| ls_last s dec g r l s1 r1 v s2 dec2 g2 : line_read s r (LLine l) s1 r1 -> line c s1 dec g l v s2 dec2 g2 -> v <> VNext ->
    lines c s dec g r [l] v s2 g2 r1.

(** The goal of a call. *)
Definition call_goal (k : fcall A) : goal := match k with FNew | FSetDec _ => GOne None | FInto a => GOne (Some a) | FAny l => GMany l end.
(** What a call gives back for its verdict and the goal afterwards. *)
Inductive replies : fcall A -> verdict -> goal -> fanswer A -> Prop :=
| rp_new v o r : gives_back (fun _ => o) v r -> replies FNew v (GOne o) (FRNew r)
| rp_into a v a' r : gives_back (fun _ => tt) v r -> replies (FInto a) v (GOne (Some a')) (FRInto r a')
| rp_any l v l' r : gives_back Some v r -> replies (FAny l) v (GMany l') (FRAny r l').
(** The calls of a program, with the lines each of them has read.  The decoder of a call is the one
    that is set when it begins. *)
Inductive reading (c : fcfg W A) : env W -> reader (env W) Z -> list (fcall A * list bytes * fanswer A) -> env W -> reader (env W) Z -> Prop :=
| rg_nil s r : reading c s r [] s r
| rg_empty s r h s' r' : reading c s r h s' r' -> reading c s r ((FAny [], [], FRAny Panic []) :: h) s' r'
| rg_set w dec dec' r h s' r' : reading c (w, dec') r h s' r' -> reading c (w, dec) r ((FSetDec dec', [], FRSet) :: h) s' r'
| rg_call w dec r k ls v s1 g r1 o h s' r' : k <> FAny [] -> lines c (w, dec) dec (call_goal k) r ls v s1 g r1 -> replies k v g o ->
    reading c s1 r1 h s' r' -> reading c (w, dec) r ((k, ls, o) :: h) s' r'.

(** Type() of *ChatMessage is empty. *)
Definition lawful : Prop := forall a, r_kind M a = KChat -> r_type M a = [].
(** A line of the type a message is for. *)
Definition line_for (limit : BinNums.Z) (a : A) (l : bytes) : Prop :=
  exists body cmd t d, l = body ++ B "|" /\ parsed body cmd d /\ of_type limit cmd t /\ takes t a.
End Spec.
Arguments goal : clear implicits.

(** The calls of C115 among those of a program. *)
Definition as_call (k : call) : fcall msg := match k with CNew => FNew | CInto m => FInto m | CAny ms => FAny ms end.
(** The answers. *)
Definition as_answer (o : answer) : fanswer msg := match o with RNew r => FRNew r | RInto r m => FRInto r m | RAny r ms => FRAny r ms end.

(** ** SetDecoder during a call *)
Section Alike.
Context {W A : Type}.
(** The same but for the decoder that is set. *)
Definition same_program (s t : env W) : Prop := fst s = fst t.
(** The same state and result. *)
Definition same_result {Y} (x y : env W * Y) : Prop := same_program (fst x) (fst y) /\ snd x = snd y.
(** Two callbacks that are both there or both not. *)
Definition alike_opt {X} (P : X -> X -> Prop) (a b : option X) : Prop := match a, b with Some x, Some y => P x y | None, None => True | _, _ => False end.
(** Callbacks that do the same, but for their calls of SetDecoder. *)
Definition alike_cfg (c d : fcfg W A) : Prop :=
  fc_max_cmd c = fc_max_cmd d /\
  alike_opt (fun f g => forall s t, same_program s t -> same_result (f s) (g t)) (fc_keep_alive c) (fc_keep_alive d) /\
  Forall2 (fun f g => forall s t cmd args, same_program s t -> same_result (f s cmd args) (g t cmd args)) (fc_raw c) (fc_raw d) /\
  alike_opt (fun f g => forall s t text, same_program s t -> same_result (f s text) (g t text)) (fc_unknown c) (fc_unknown d) /\
  alike_opt (fun f g => forall s t l e, same_program s t -> same_result (f s l e) (g t l e)) (fc_unmarshal_err c) (fc_unmarshal_err d) /\
  Forall2 (fun f g => forall s t a, same_program s t -> same_program (fst (fst (f (s, a)))) (fst (fst (g (t, a)))) /\
    snd (fst (f (s, a))) = snd (fst (g (t, a))) /\ snd (f (s, a)) = snd (g (t, a))) (fc_msg c) (fc_msg d).
(** Messages that do the same, but for their calls of SetDecoder. *)
Definition alike_rmethods (M N : rmethods W A) : Prop :=
  (forall a, r_type M a = r_type N a) /\ (forall a, r_kind M a = r_kind N a) /\ (forall t, r_new M t = r_new N t) /\ r_chat M = r_chat N /\
  forall a dec s t d, same_program s t -> let '(s', a', r) := r_unmarshal M a dec s d in let '(t', b', q) := r_unmarshal N a dec t d in
    same_program s' t' /\ a' = b' /\ r = q.
End Alike.
