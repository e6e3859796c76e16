(** Property C114: what decoding into a used message gives. *)
From Verif Require Import Base SpecText SpecHash SpecNmdc SpecRead SpecFrame SpecReuse NmdcText NmdcChat NmdcHub NmdcFiles NmdcUser NmdcMessage NmdcReadMsg NmdcOverFacts.

(** ** C114: decoding into a used message, exactly *)
Theorem C114_decoded : forall dec o data m, sized o -> msg_unmarshal dec o data = (m, Ok tt) -> reads_over dec o data m.
Proof. exact decoded_over. Qed.
Print Assumptions C114_decoded.
Theorem C114_accepted : forall dec o data m, sized o -> reads_over dec o data m -> exists m', msg_unmarshal dec o data = (m', Ok tt) /\ msg_alike m' m.
Proof. exact over_decoded. Qed.
Print Assumptions C114_accepted.
Theorem C114_unique : forall dec o data m m', sized o -> reads_over dec o data m -> reads_over dec o data m' -> msg_alike m m'.
Proof. exact over_unique. Qed.
Print Assumptions C114_unique.
(** A message that was just created has nothing to keep: the relation is the one of C98. *)
Theorem C114_fresh : forall dec t data m, reads_over dec (new_message t) data m <-> msg_type m = t /\ reads dec data m.
Proof. exact over_fresh. Qed.
Print Assumptions C114_fresh.

(** One line for each of the ten types, with what remains. *)
Definition C114_cases : list (msg * bytes * msg) :=
  [(MErr KFailed (Some (B "old")), [], MErr KFailed (Some (B "old")));
   (MChat (mk_chat (B "old") (B "x")), B "text", MChat (mk_chat (B "old") (B "text")));
   (MUserCommand (mk_ucmd 0 0 [B "old"] (B "cmd")), B "255 1", MUserCommand (mk_ucmd 255 1 [B "old"] (B "cmd")));
   (MCtm (mk_ctm (B "x") (B "old") (B "y") 1 true), B "nick 1.2.3.4:5", MCtm (mk_ctm (B "nick") (B "old") (B "1.2.3.4:5") 0 true));
   (MCtm (mk_ctm [] [] [] 0 true), B "nick 1.2.3.4:5N from", MCtm (mk_ctm (B "nick") (B "from") (B "1.2.3.4:5") 1 true));
   (MAdcGet (mk_adcget [] [] 0 0 true (Some 1%N)), B "file x 0 1", MAdcGet (mk_adcget (B "file") (B "x") 0 1 true (Some 1%N)));
   (MAdcSnd (mk_adcsnd [] [] 0 0 true), B "file x 0 1", MAdcSnd (mk_adcsnd (B "file") (B "x") 0 1 true));
   (MHubInfo (mk_hubinfo (B "a") (B "b") (B "c") 1 2 3 4 (B "d") (B "e") (B "f") (B "g") (B "h")), B "name$host",
    MHubInfo (mk_hubinfo (B "name") (B "host") (B "c") 1 2 3 4 (B "d") (B "e") (B "f") (B "g") (B "h")));
   (MSearch (mk_search (B "old") [] true false 7 0 (B "old") (Some (repeat x01 24))), B "Hub:nick F?T??1?x",
    MSearch (mk_search (B "old") (B "nick") false true 7 1 (B "x") (Some (repeat x01 24))));
   (MSR (mk_sr [] [] true 0 0 0 (B "old") (Some (repeat x01 24)) [] (B "me")), B "nick a" ++ [x05] ++ B "1 2/3" ++ [x05] ++ B "hub (x:1)",
    MSR (mk_sr (B "nick") [B "a"] false 1 2 3 (B "hub") (Some (repeat x01 24)) (B "x:1") (B "me")));
   (MMyInfo (mk_myinfo [] [] (B "++") (B "1.0") "P"%byte 1 2 3 4 [(B "K", B "v")] (B "56K") x01 (B "m@x") 9), B "$ALL nick <S:5>$ $$$$",
    MMyInfo (mk_myinfo (B "nick") [] [] (B "1.0") x00 1 2 3 5 [] (B "56K") x01 [] 9))].
Example C114_case : Forall (fun c => let '(o, d, m) := c in sized o /\ msg_unmarshal None o d = (m, Ok tt) /\ reads_over None o d m) C114_cases.
Proof.
  assert (K : forall o d m, sized o -> msg_unmarshal None o d = (m, Ok tt) -> sized o /\ msg_unmarshal None o d = (m, Ok tt) /\ reads_over None o d m) by (intros; split; [assumption|split; [assumption|now apply decoded_over]]).
  repeat (constructor; [apply K; vm_compute; first [reflexivity|exact Logic.I]|]). constructor.
Qed.
