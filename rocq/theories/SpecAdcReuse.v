(** Specification of UnmarshalPacketADC on packets in use and of packets with messages of a program. *)
From Verif Require Import Base LineReader LineWriter AdcMessage AdcPacket AdcWriter AdcReuse SpecAdcRead SpecAdcWrite.

(** [picked x sel t]: feature selectors and spaces, then [t]. *)
Inductive picked : bytes -> list (bytes * bool) -> bytes -> Prop :=
| pk_end t : picked t [] t
| pk_space x sel t : picked x sel t -> picked (" "%byte :: x) sel t
| pk_with f x sel t : length f = 4 -> picked x sel t -> picked ("+"%byte :: f ++ x) ((f, true) :: sel) t
| pk_without f x sel t : length f = 4 -> picked x sel t -> picked ("-"%byte :: f ++ x) ((f, false) :: sel) t.
(** The start of a selector that is cut off. *)
Definition cut_off (t : bytes) : Prop := exists c f, t = c :: f /\ (c = "+"%byte \/ c = "-"%byte) /\ length f < 4.
(** The packet [p'] is [p], but for the identifier and the selectors of data that ends in a broken selector of [n] bytes. *)
Definition half_read (data : bytes) (p p' : packet) (n : nat) : Prop :=
  exists old sel m id x sel' t, p = PFeature old sel m /\ p' = PFeature id sel' m /\ headed 4 data id x /\ picked x sel' t /\ cut_off t /\ length t = n.

(** [gives c d r]: the message appends [d] to the buffer, whatever is in it, and ends with [r]. *)
Definition gives (c : custom) (d : bytes) (r : mend) : Prop := forall b, c_marshal c b = (b ++ d, r).
(** The line of a packet [p] with a message which appends [d]. *)
Definition line_with (p : packet) (c : custom) (d l : bytes) : Prop :=
  exists ws, header_text p ws /\ l = letter p :: join (B " ") (c_cmd c :: ws ++ match d with [] => [] | _ => [d] end) ++ [x0a].

Section Writer.
Context {W dst : Type} (dstep : dst -> dop -> dst * list bytes).
(** Calls of the line writer: WriteLine and Flush. *)
Inductive line_call := LLine (l : bytes) | LFlush.
(** Successive calls and the errors they return. *)
Fixpoint line_calls (os : list line_call) (s : W) (w : writer W dst) : wout (list (option error) * W * writer W dst) :=
  match os with
  | [] => WRet ([], s, w)
  | o :: r =>
      let one := match o with
                 | LLine l => write_line dstep s l w
                 | LFlush => match flush dstep w with WRet (e, w') => WRet (e, s, w') | WPan => WPan | WStuck => WStuck end
                 end in
      match one with
      | WRet (e, s1, w1) =>
          match line_calls r s1 w1 with WRet (es, s2, w2) => WRet (e :: es, s2, w2) | WPan => WPan | WStuck => WStuck end
      | WPan => WPan
      | WStuck => WStuck
      end
  end.

(** [carried os ls]: the calls of the line writer for those of the packet writer: none for a message that fails. *)
Inductive carried : list wcall -> list line_call -> Prop :=
| ca_nil : carried [] []
| ca_packet p c d l os ls : gives c d MDone -> line_with p c d l -> carried os ls -> carried (CPacket p c :: os) (LLine l :: ls)
| ca_fail p c d r os ls : gives c d r -> r <> MDone -> carried os ls -> carried (CPacket p c :: os) ls
| ca_keep os ls : carried os ls -> carried (CKeepAlive :: os) (LLine [x0a] :: ls)
| ca_flush os ls : carried os ls -> carried (CFlush :: os) (LFlush :: ls).
(** [returned os es rs]: what the calls return if those of the line writer return [es]. *)
Inductive returned : list wcall -> list (option error) -> list outcome -> Prop :=
| re_nil : returned [] [] []
| re_packet p c d e os es rs : gives c d MDone -> returned os es rs -> returned (CPacket p c :: os) (e :: es) (OReturn e :: rs)
| re_fail p c d e os es rs : gives c d (MFail e) -> returned os es rs -> returned (CPacket p c :: os) es (OReturn (Some e) :: rs)
| re_panic p c d os es rs : gives c d MPanic -> returned os es rs -> returned (CPacket p c :: os) es (OPanic :: rs)
| re_keep e os es rs : returned os es rs -> returned (CKeepAlive :: os) (e :: es) (OReturn e :: rs)
| re_flush e os es rs : returned os es rs -> returned (CFlush :: os) (e :: es) (OReturn e :: rs).
(** Messages that only append to the buffer. *)
Definition appending (os : list wcall) : Prop := forall p c, In (CPacket p c) os -> exists d r, gives c d r.
End Writer.
