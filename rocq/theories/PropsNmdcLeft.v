(** Property C123: what is left in an NMDC message after a failed decoding.
    Specification: SpecNmdcLeft.v.  Proofs: NmdcLeftFacts.v. *)
From Verif Require Import Base SpecText SpecHash SpecNmdc SpecRead SpecFrame SpecReuse SpecStream NmdcText NmdcChat NmdcHub NmdcFiles NmdcUser NmdcMessage NmdcReadMsg NmdcCrashFacts NmdcOverFacts SpecNmdcLeft NmdcLeftFacts.

(** ** C123: failed decodings, exactly *)
Theorem C123_failed : forall dec o data m e, sized o -> msg_unmarshal dec o data = (m, Err e) -> left_by dec o data m.
Proof. exact failed_left. Qed.
Print Assumptions C123_failed.
Theorem C123_complete : forall dec o data m, sized o -> left_by dec o data m -> exists m' e, msg_unmarshal dec o data = (m', Err e) /\ msg_alike m' m.
Proof. exact left_failed. Qed.
Print Assumptions C123_complete.
Theorem C123_unique : forall dec o data m m', sized o -> left_by dec o data m -> left_by dec o data m' -> msg_alike m m'.
Proof. exact left_unique. Qed.
Print Assumptions C123_unique.
(** The three outcomes of a decoding: of [reads_over] (C114), [left_by] and the crash of searches
    exactly one applies. *)
Theorem C123_outcomes : forall dec o data, sized o ->
  ((exists m, reads_over dec o data m) \/ (exists m, left_by dec o data m) \/ (exists s, o = MSearch s) /\ search_crash dec data) /\
  (forall m m', reads_over dec o data m -> ~ left_by dec o data m') /\
  ((exists s, o = MSearch s) /\ search_crash dec data -> forall m, ~ reads_over dec o data m /\ ~ left_by dec o data m).
Proof. exact outcomes. Qed.
Print Assumptions C123_outcomes.

(** Refused payloads of most types, with what is left. *)
Definition C123_cases : list (msg * bytes * msg) :=
  [(MName KHello (B "old"), B "a$b", MName KHello (B "old"));
   (MNoArgs KGetPass, B "x", MNoArgs KGetPass);
   (MNames KOpList [B "old"], B "a$$b$", MNames KOpList [B "old"]);
   (MChat (mk_chat (B "old") (B "x")), B "<nick", MChat (mk_chat (B "old") (B "x")));
   (MPm (mk_pm (B "a") (B "b") (B "c") (B "d")), B "x From: y", MPm (mk_pm (B "x") (B "b") (B "c") (B "d")));
   (MUserCommand (mk_ucmd 0 0 [B "old"] (B "cmd")), B "255 x", MUserCommand (mk_ucmd 255 0 [B "old"] (B "cmd")));
   (MCtm (mk_ctm (B "x") (B "old") (B "y") 1 true), B "nick", MCtm (mk_ctm (B "x") (B "old") (B "y") 1 true));
   (MAdcGet (mk_adcget [] [] 7 8 true (Some 1%N)), B "file x 3 y", MAdcGet (mk_adcget (B "file") (B "x") 3 8 true (Some 1%N)));
   (MAdcGet (mk_adcget [] [] 7 8 true None), B "file x 3 4 ZL1 DB5 DBx", MAdcGet (mk_adcget (B "file") (B "x") 3 4 true (Some 5%N)));
   (MAdcSnd (mk_adcsnd [] [] 7 8 true), B "file x -1 4", MAdcSnd (mk_adcsnd (B "file") (B "x") 0 8 true));
   (MDirection (mk_direction true 9), B "Download x", MDirection (mk_direction false 9));
   (MHubInfo (mk_hubinfo (B "a") (B "b") (B "c") 1 2 3 4 (B "d") (B "e") (B "f") (B "g") (B "h")), B "name$host$desc$x",
    MHubInfo (mk_hubinfo (B "name") (B "host") (B "desc") 1 2 3 4 (B "d") (B "e") (B "f") (B "g") (B "h")));
   (MSearch (mk_search (B "old") [] true false 7 0 (B "old") None), B "Hub:nick F?T?x?1?y",
    MSearch (mk_search (B "old") (B "nick") false true 0 0 (B "old") None));
   (MSR (mk_sr [] [] true 0 0 0 (B "old") None [] (B "me")), B "nick a" ++ [x05] ++ B "1 2/y" ++ [x05] ++ B "hub (x:1)",
    MSR (mk_sr (B "nick") [B "a"] false 1 2 0 (B "old") None [] (B "me")));
   (MSA (mk_sa (repeat x01 24) (B "n")), B "MFRGG!", MSA (mk_sa (repeat x01 24) (B "n")));
   (MSP (mk_sp (repeat x01 24) (B "n")), B "MFRGGZDFMZTWQ2LK!!!!!!!!!!!!!!!!!!!!!!! n", MSP (mk_sp (B "abcdefghij" ++ repeat x01 14) (B "n")));
   (MMyInfo (mk_myinfo [] [] (B "++") (B "1.0") "P"%byte 1 2 3 4 [(B "K", B "v")] (B "56K") x01 (B "m@x") 9), B "$ALL nick <x V:2,M:A,S:y,Z:1>$ $$$$",
    MMyInfo (mk_myinfo (B "nick") [] (B "++") (B "2") "A"%byte 1 2 3 0 [] (B "56K") x01 (B "m@x") 9));
   (MMyInfo (mk_myinfo [] (B "d") (B "++") (B "1.0") "P"%byte 1 2 3 4 [] (B "56K") x01 (B "m@x") 9), B "$ALL nick <x V:2,H:1/99999999999999999999/5,S:5>$ $$$$",
    MMyInfo (mk_myinfo (B "nick") (B "d") (B "++") (B "2") x00 1 9223372036854775807 3 4 [] (B "56K") x01 (B "m@x") 9));
   (MMyInfo (mk_myinfo [] (B "d") (B "++") (B "1.0") "P"%byte 1 2 3 4 [] (B "56K") x01 (B "m@x") 9), B "$ALL nick new<x V:2>$AA$LAN1$$$",
    MMyInfo (mk_myinfo (B "nick") (B "new") (B "x") (B "2") x00 1 2 3 4 [] (B "56K") x01 (B "m@x") 9));
   (MUserIP [(B "old", B "0")], B "a 1$$b$ 2$$c 3", MUserIP [(B "a", B "1")])].
Example C123_case : Forall (fun c => let '(o, d, m) := c in sized o /\ fst (msg_unmarshal None o d) = m /\ left_by None o d m) C123_cases.
Proof.
  assert (K : forall o d m, sized o -> (exists e, snd (msg_unmarshal None o d) = Err e) -> fst (msg_unmarshal None o d) = m -> sized o /\ fst (msg_unmarshal None o d) = m /\ left_by None o d m).
  { intros o d m Sz [e E] F. split; [exact Sz|]. split; [exact F|]. apply (failed_left None o d m e); [exact Sz|]. rewrite <- F, <- E. apply surjective_pairing. }
  unfold C123_cases. repeat (constructor; [apply K; vm_compute; first [reflexivity|exact Logic.I|eexists; reflexivity]|]). constructor.
Qed.
