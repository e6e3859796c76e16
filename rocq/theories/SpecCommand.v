(** The commands of NMDC: the name that stands after the dollar sign for every message. *)
From Verif Require Import Base NmdcMessage.

(** Chat messages have no name; that of an unknown message is kept with it. *)
Definition command (m : msg) : bytes :=
  match m with
  | MName k _ =>
      match k with
      | KHello => B "Hello" | KKick => B "Kick" | KClose => B "Close" | KValidateNick => B "ValidateNick"
      | KValidateDenide => B "ValidateDenide" | KMyNick => B "MyNick" | KQuit => B "Quit" | KLogedIn => B "LogedIn"
      end
  | MString k _ =>
      match k with
      | KHubName => B "HubName" | KSetTopic => B "SetTopic" | KMyPass => B "MyPass" | KBotINFO => B "BotINFO"
      | KSetIcon => B "SetIcon" | KSetLogo => B "SetLogo" | KHubTopic => B "HubTopic"
      end
  | MNoArgs k =>
      match k with
      | KMaxedOut => B "MaxedOut" | KHubIsFull => B "HubIsFull" | KZOn => B "ZOn" | KGetTopic => B "GetTopic"
      | KBadPass => B "BadPass" | KGetPass => B "GetPass" | KGetNickList => B "GetNickList"
      end
  | MText k _ => match k with KVersion => B "Version" | KKey => B "Key" | KForceMove => B "ForceMove" end
  | MErr k _ => match k with KFailed => B "Failed" | KError => B "Error" end
  | MNames k _ => match k with KOpList => B "OpList" | KBotList => B "BotList" end
  | MChat _ => []
  | MPm _ => B "To:" | MMCTo _ => B "MCTo" | MUserCommand _ => B "UserCommand"
  | MCtm _ => B "ConnectToMe" | MRevCtm _ => B "RevConnectToMe"
  | MAdcGet _ => B "ADCGET" | MAdcSnd _ => B "ADCSND" | MDirection _ => B "Direction"
  | MFailOver _ => B "FailOver" | MLock _ => B "Lock" | MHubInfo _ => B "HubINFO"
  | MSearch _ => B "Search" | MSR _ => B "SR" | MSA _ => B "SA" | MSP _ => B "SP"
  | MMyInfo _ => B "MyINFO" | MUserIP _ => B "UserIP" | MSupports _ => B "Supports"
  | MRaw t _ => t
  end.
