(** Properties C135 and C136: WriteMsg with messages of a program, and SetEncoder during calls.  Specification: SpecProgram.v,
    SpecFrame.v, SpecWrite.v.  Proofs: NmdcProgramFacts.v.

    [W] is an arbitrary type of states of the program, [A] an arbitrary type of messages, [dstep] an arbitrary compressor. *)
From Verif Require Import Base BaseFacts NmdcText NmdcMessage SpecFrame SpecWrite NmdcFrameFacts NmdcWriteFacts LineReader LineWriter SpecEdit NmdcProgram SpecProgram NmdcProgramFacts.

(** ** C135: messages of a program *)

(** MarshalTo appends one frame to the buffer, for every message that appends to it and has a command or a payload. *)
Theorem C135_frame {W A} (M : methods W A) a enc s s' d f buf : gives M a enc s s' d PDone -> framed (p_type M a) d f ->
  program_to M enc s buf a = (s', buf ++ f, PDone) /\ program_marshal M enc s a = (s', Ok f).
Proof. intros G F. split; [exact (frame_to M _ _ _ _ _ _ buf G F)|]. unfold program_marshal. now rewrite (frame_to M _ _ _ _ _ _ [] G F). Qed.
Print Assumptions C135_frame.
(** Marshal gives the frame, the error or the panic of the message, and what the message did to the program stays done. *)
Theorem C135_marshal {W A} (M : methods W A) enc s a s' x : appending M -> (program_marshal M enc s a = (s', x) <-> encoded M enc s a s' x).
Proof.
  intros AP. destruct (encoded_to M AP enc s a) as (s1 & x1 & E & H).
  assert (P : program_marshal M enc s a = (s1, x1)) by (unfold program_marshal; destruct x1; [now rewrite H|destruct H as (b & ->); reflexivity..]).
  rewrite P. split; [now intros [= <- <-]|]. intros E'. destruct (encoded_one M enc s a _ _ _ _ E E') as [-> ->]. reflexivity.
Qed.
Print Assumptions C135_marshal.
(** There is no frame for a message without both. MarshalTo only ever appends to the buffer: this is false, since for such a
    message it overwrites the byte before. *)
Theorem C135_appends_refuted : ~ (forall (M : methods unit unit) a enc s s' d buf, gives M a enc s s' d PDone -> buf <> [] ->
  exists f, program_to M enc s buf a = (s', buf ++ f, PDone)).
Proof.
  intros H. destruct (H (mkMethods (fun _ => []) (fun _ _ s b => (s, b, PDone))) tt None (tt, None) (tt, None) [] (B "$Hello bob|x")) as [f E]; [|discriminate|].
  - intros b. now rewrite app_nil_r.
  - vm_compute in E. discriminate.
Qed.
Print Assumptions C135_appends_refuted.
Theorem C135_nothing {W A} (M : methods W A) a enc s s' buf : gives M a enc s s' [] PDone -> p_type M a = [] ->
  (buf = [] -> program_to M enc s buf a = (s', [], PPanic)) /\ forall b c, buf = b ++ [c] -> program_to M enc s buf a = (s', b ++ B "|", PDone).
Proof.
  intros G T. split.
  - intros ->. now rewrite (gives_to M _ _ _ _ _ _ [] G), T.
  - intros b c ->. rewrite (gives_to M _ _ _ _ _ _ (b ++ [c]) G), T, put_last_space. reflexivity.
Qed.
Print Assumptions C135_nothing.
(** The messages of the package are such messages: with the payloads of C107 or with an error. *)
Theorem C135_package {W} junk m enc (s : env W) : sized m ->
  (forall p, gives (package_methods junk) m enc s s p PDone <-> writes enc m p) /\
  ((forall p, ~ writes enc m p) -> exists e, gives (package_methods junk) m enc s s (junk m) (PFail e)).
Proof.
  intros S. split.
  - intros p. rewrite <- (writes_iff enc m p S). split.
    + intros G. specialize (G []). cbn in G. destruct (msg_marshal enc m) as [q|e|]; [|discriminate..]. injection G as ->. reflexivity.
    + intros E b. cbn. now rewrite E.
  - intros N. assert (K : exists e, msg_marshal enc m = Err e).
    { destruct (msg_marshal enc m) as [q|e|] eqn:E; [|eauto|].
      - destruct (N q). now apply writes_iff.
      - destruct (payload_total enc m S E). }
    destruct K as [e E]. exists e. intros b. cbn. now rewrite E.
Qed.
Print Assumptions C135_package.

(** Any calls of a program: each WriteMsg is a number of calls of the line writer, one for each message up to the first that is not
    written; a message that fails, or that panics, writes nothing.  [program] is what the calls do to the line writer. *)
Theorem C135_calls {W A dst} dstep (M : methods W A) os s (x : pwriter W A dst) rs s' x' : appending M ->
  program_calls dstep M os s x = WRet (rs, s', x') -> length rs = length os /\ program dstep M (pw_msg x) s (pw_line x) (combine os rs) s' (pw_line x').
Proof. intros AP H. destruct (calls_program dstep M AP _ _ _ _ _ _ H) as (L & P & _). auto. Qed.
Print Assumptions C135_calls.
Theorem C135_all_calls {W A dst} dstep (M : methods W A) hs s (w : writer (env W) dst) h s' w' m : appending M -> program dstep M hs s w h s' w' ->
  exists x', program_calls dstep M (map fst h) s (mkPwriter w hs m) = WRet (map snd h, s', x') /\ pw_line x' = w'.
Proof. intros AP H. destruct (program_runs dstep M AP _ _ _ _ _ _ H m) as [m' E]. eexists. split; [exact E|reflexivity]. Qed.
Print Assumptions C135_all_calls.

(** A message that fails or panics, whatever it does to the buffer before: the line writer is as before, and the later calls do
    what they would do without the attempt. *)
Theorem C135_failed {W A dst} dstep (M : methods W A) s a l (x : pwriter W A dst) s1 a1 : wr_err (pw_line x) = None ->
  asked (pw_msg x) s a s1 a1 HPass -> (forall b, snd (p_marshal M a1 (snd s) s1 b) <> PDone) ->
  exists r s2 x', send_msgs dstep M s (a :: l) x = WRet (r, s2, x') /\ r <> Returned None /\ pw_line x' = pw_line x /\ pw_msg x' = pw_msg x /\
    forall os rs s3 x3, program_calls dstep M os s2 x = WRet (rs, s3, x3) ->
      exists x4, program_calls dstep M os s2 x' = WRet (rs, s3, x4) /\ pw_line x4 = pw_line x3.
Proof.
  intros He HA HF. unfold send_msgs. rewrite He. cbn [send_each]. apply ask_asked in HA. rewrite HA.
  destruct (to_fails M (snd s) s1 a1 (HF _)) as [b E]. rewrite E. specialize (HF (msg_head (p_type M a1))).
  destruct (p_marshal M a1 (snd s) s1 (msg_head (p_type M a1))) as [[s2 b1] r]. cbn [fst snd] in *. destruct x as [w hs m].
  destruct r as [|e|]; [easy| |]; (do 3 eexists; split; [reflexivity|]; split; [discriminate|]; split; [reflexivity|]; split; [reflexivity|]);
    intros os rs s3 x3 K; destruct (calls_scratch dstep M hs _ _ _ _ _ _ _ K b) as [m3 K3]; eexists; (split; [exact K3|reflexivity]).
Qed.
Print Assumptions C135_failed.

(** Messages that name themselves, fail half-way, panic, or truncate what they find. *)
Definition C135_methods : methods nat bytes := mkMethods (fun a => match a with [] => [] | c :: _ => if beq c "!"%byte then B "Bad" else B "Foo" end)
  (fun a _ s b => let s' := (S (fst s), snd s) in match a with
    | [] => (s', b, PDone)
    | c :: t => if beq c "!"%byte then (s', b ++ t, PFail (EText "bad")) else if beq c "?"%byte then (s', b, PPanic) else (s', b ++ a, PDone) end).
Example C135_case : let dstep := fun (d : unit) (_ : dop) => (d, []) in
  appending C135_methods /\
  exists s x, program_calls dstep C135_methods [PMsgs [B "one"; B "!half"; B "two"]; PMsgs [B "?"]; PKeep; PMsgs [[]]; PMsgs [B "three"]; PFlush] (0, None) (mkPwriter (new_writer [] 100) [] []) =
    WRet ([Returned (Some (EText "bad")); Panicked; Returned None; Panicked; Returned None; Returned None], (s, None), x) /\ s = 5 /\
  cn_trace (wr_conn (pw_line x)) = [EvWrite (B "$Foo one||$Foo three|") 21 None].
Proof.
  cbv zeta. split.
  - intros a enc s. unfold gives. cbn. destruct a as [|c t]; [exists (S (fst s), snd s), [], PDone; intros b; now rewrite app_nil_r|].
    destruct (beq c "!"); [do 3 eexists; reflexivity|]. destruct (beq c "?"); [|do 3 eexists; reflexivity].
    exists (S (fst s), snd s), [], PPanic. intros b. now rewrite app_nil_r.
  - do 2 eexists. split; [vm_compute; reflexivity|]. split; vm_compute; reflexivity.
Qed.

(** ** C136: SetEncoder during a call *)

(** All messages of a WriteMsg are encoded with the encoder that was set when it began. *)
Theorem C136_encoder {W A dst} dstep (M : methods W A) st enc l (x : pwriter W A dst) r s' x' : appending M -> wr_err (pw_line x) = None ->
  (send_msgs dstep M (st, enc) l x = WRet (r, s', x') -> sent dstep M (pw_msg x) enc (st, enc) l (pw_line x) r s' (pw_line x')) /\
  (sent dstep M (pw_msg x) enc (st, enc) l (pw_line x) r s' (pw_line x') -> exists m, send_msgs dstep M (st, enc) l x = WRet (r, s', mkPwriter (pw_line x') (pw_msg x) m)).
Proof.
  intros AP He. unfold send_msgs. rewrite He. cbn [snd]. split.
  - intros H. now destruct (each_sent dstep M AP _ _ _ _ _ _ _ H).
  - intros H. destruct x as [w hs m]. exact (sent_each dstep M AP _ _ _ _ _ _ _ _ H m).
Qed.
Print Assumptions C136_encoder.
(** So calls of SetEncoder during a WriteMsg, by callbacks, by messages or by others, do not influence it: without them it does
    the same, but for the encoder that is set afterwards. *)
Theorem C136_during {W A dst} dstep (M N : methods W A) st enc l (x y : pwriter W A dst) : alike_methods M N -> alike_writer x y ->
  match send_msgs dstep M (st, enc) l x, send_msgs dstep N (st, enc) l y with
  | WRet (r, s, x'), WRet (q, t, y') => r = q /\ same_state s t /\ alike_writer x' y'
  | WPan, WPan | WStuck, WStuck => True
  | _, _ => False
  end.
Proof.
  intros HM HX. unfold send_msgs. destruct HX as (H1 & H2 & H3). assert (E : wr_err (pw_line x) = wr_err (pw_line y)) by apply H1. rewrite <- E.
  destruct (wr_err (pw_line x)) as [e|].
  - split; [reflexivity|]. split; [reflexivity|]. now split.
  - cbn [snd]. apply (each_alike dstep M N HM); [reflexivity|now split].
Qed.
Print Assumptions C136_during.
(** SetEncoder in a callback holds for the message that the callback was asked about: this is false. *)
Theorem C136_callback_refuted : ~ (forall (hs : list (phook unit msg)) m st enc s1 m1 f (x : pwriter unit msg unit) r s' x',
  pw_msg x = hs -> wr_err (pw_line x) = None -> wr_hooks (pw_line x) = [] -> asked hs (st, enc) m s1 m1 HPass -> marshal (snd s1) m1 = Ok f ->
  send_msgs (fun d _ => (d, [])) (package_methods (fun _ => [])) (st, enc) [m] x = WRet (r, s', x') -> write_line (fun d _ => (d, [])) s1 f (pw_line x) = WRet (None, s', pw_line x')).
Proof.
  intros H.
  specialize (H [fun s m => (((tt, Some (fun t => Some (rev t))), m), HPass)] (MName KHello (B "bob!")) tt None _ _ (B "$Hello !bob|")
    (mkPwriter (new_writer [] 100) [fun s m => (((tt, Some (fun t => Some (rev t))), m), HPass)] []) _ _ _ eq_refl eq_refl eq_refl
    (as_pass _ _ _ _ _ _ _ _ _ eq_refl (as_none _ _)) eq_refl eq_refl). vm_compute in H. discriminate.
Qed.
Print Assumptions C136_callback_refuted.

(** A callback that changes the encoder with every message; what is sent is as without, until the next call. *)
Example C136_case : let dstep := fun (d : unit) (_ : dop) => (d, []) in let back : codec := Some (fun t => Some (rev t)) in
  let h : phook nat msg := fun s m => (((S (fst s), back), m), HPass) in let k : phook nat msg := fun s m => (((S (fst s), snd s), m), HPass) in
  let M := package_methods (fun _ => B "$") in let msgs := [MName KHello (B "abc"); MName KQuit (B "xyz")] in
  alike_methods (W:=nat) M M /\ alike_hook h k /\ exists x y,
  program_calls dstep M [PMsgs msgs; PMsgs msgs; PFlush] (0, None) (mkPwriter (new_writer [] 100) [h] []) = WRet ([Returned None; Returned None; Returned None], (4, back), x) /\
  cn_trace (wr_conn (pw_line x)) = [EvWrite (B "$Hello abc|$Quit xyz|$Hello cba|$Quit zyx|") 42 None] /\
  program_calls dstep M [PMsgs msgs; PMsgs msgs; PFlush] (0, None) (mkPwriter (new_writer [] 100) [k] []) = WRet ([Returned None; Returned None; Returned None], (4, None), y) /\
  cn_trace (wr_conn (pw_line y)) = [EvWrite (B "$Hello abc|$Quit xyz|$Hello abc|$Quit xyz|") 42 None].
Proof.
  cbv zeta. split; [|split].
  - split; [reflexivity|]. intros a enc s t b S. cbn. destruct (msg_marshal enc a); auto.
  - intros s t a S. cbn. unfold same_state in *. cbn. auto.
  - do 2 eexists. split; [vm_compute; reflexivity|]. split; [vm_compute; reflexivity|]. split; vm_compute; reflexivity.
Qed.
