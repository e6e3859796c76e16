(** Small methods of messages and errors. *)
From Verif Require Import Base Num NmdcChat AdcMessage.

(** ChatMessage.String, nmdc/msg_chat.go:24-29 *)
Definition chat_string (m : chat) : bytes := match ch_name m with [] => ch_text m | n => B "<" ++ n ++ B "> " ++ ch_text m end.
(** Error.Error, adc/types.go:56-58, of a status *)
Definition status_error (st : status) : bytes := B "code " ++ format_int (st_code st) ++ B ": " ++ st_msg st.
(** UserType.Is, adc/user.go:35.  Go's & on a signed integer is that of the two's complement. *)
Definition user_type_is (t st : Z) : bool := negb (Z.land t st =? 0)%Z.
