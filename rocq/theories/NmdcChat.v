(** nmdc/msg_chat.go and nmdc/msg_ctm.go: chat messages, user commands and connection
    requests.

    A payload encoder returns the bytes it appends to the buffer; what it leaves in the
    buffer when it fails is not modelled (nmdc/writer.go:69-73 discards it).  A payload
    decoder takes the message it is called on and returns its new value together with the
    result, so that partial updates before an error are visible.  Setters [set_*] are field
    assignments. *)
From Verif Require Import Base Num Utf8 NmdcText.

(** [x, err := r; if err != nil { return err }] while the message has the value [m]
    (e.g. nmdc/msg_chat.go:145-183). *)
Notation "'do' x <- r 'keeping' m ; k" :=
  (match r with Ok x => k | Err e => (m, Err e) | Panic => (m, Panic) end)
  (at level 200, x pattern, r at level 100, m at level 99, k at level 200, right associativity) : go_scope.

(** ** ChatMessage *)
(** nmdc/msg_chat.go:19-22 *)
Record chat := mk_chat { ch_name : bytes; ch_text : bytes }.
(** assignment to the field name, nmdc/msg_chat.go:19-22 *)
Definition set_ch_name (m : chat) (x : bytes) : chat := mk_chat x (m.(ch_text)).
(** assignment to the field text, nmdc/msg_chat.go:19-22 *)
Definition set_ch_text (m : chat) (x : bytes) : chat := mk_chat (m.(ch_name)) x.
(** the zero value, nmdc/msg_chat.go:19-22 *)
Definition chat0 : chat := mk_chat [] [].

(** nmdc/msg_chat.go:35-49 *)
Definition chat_marshal (enc : codec) (m : chat) : res bytes :=
  do p <- match m.(ch_name) with
          | [] => Ok []
          | n => do b <- name_marshal enc n; Ok (B "<" ++ b ++ B "> ")
          end;
  do t <- string_marshal enc m.(ch_text);
  Ok (p ++ t).

(** bytes.IndexAny(s, ">\r\n") (nmdc/msg_chat.go:63-91). *)
Definition stop_char (c : byte) : bool := (beq c ">" || beq c x0d || beq c x0a)%bool.
(** bytes.IndexAny, nmdc/msg_chat.go:63-91 *)
Fixpoint index_stop (s : bytes) : option nat :=
  match s with
  | [] => None
  | c :: t => if stop_char c then Some 0 else option_map S (index_stop t)
  end.

(** The search for the end of the name, nmdc/msg_chat.go:63-91: the values of [i] and
    [off].  Fuel: [base] grows in every round. *)
Fixpoint name_end (fuel : nat) (data : bytes) (base : nat) : res (nat * nat) :=
  match fuel with
  | O => Ok (0, 0)
  | S f =>
      if (base <? length data)%nat then
        match index_stop (skipn base data) with
        | Some j =>
            if beq (nth (base + j) data x00) ">" then
              if (base + j =? length data - 1)%nat then Ok (j, 1)
              else let (r, sz) := decode_rune (skipn (base + j + 1) data) in
                   if is_space_rune r then Ok (base + j, sz + 1)
                   else name_end f data (base + (j + 1))
            else if (base =? 0)%nat then Err (EProtocol "no closing token") else Ok (base - 1, 1)
        | None => if (base =? 0)%nat then Err (EProtocol "no closing token") else Ok (base - 1, 1)
        end
      else Ok (0, 0)
  end.

(** nmdc/msg_chat.go:51-111 *)
Definition chat_text (dec : codec) (m : chat) (data : bytes) : chat * res unit :=
  do t <- string_unmarshal dec data keeping m;
  (set_ch_text m t, Ok tt).
(** ChatMessage.UnmarshalNMDC, nmdc/msg_chat.go:51-111 *)
Definition chat_unmarshal (dec : codec) (m : chat) (data : bytes) : chat * res unit :=
  match data with
  | c :: data1 =>
      if beq c "<" then
        do (i, off) <- name_end (S (length data1)) data1 0 keeping m;
        let name := firstn i data1 in
        if (max_name <? length name)%nat then (m, Err (EProtocol "name is too long"))
        else
          do sname <- name_unmarshal dec name keeping m;
          chat_text dec (set_ch_name m sname) (skipn (i + off) data1)
      else chat_text dec m data
  | [] => chat_text dec m data
  end.

(** ** PrivateMessage *)
(** nmdc/msg_chat.go:113-117 *)
Record pm := mk_pm { pm_to : bytes; pm_from : bytes; pm_name : bytes; pm_text : bytes }.
(** assignment to the field to, nmdc/msg_chat.go:113-117 *)
Definition set_pm_to (m : pm) (x : bytes) : pm := mk_pm x (m.(pm_from)) (m.(pm_name)) (m.(pm_text)).
(** assignment to the field from, nmdc/msg_chat.go:113-117 *)
Definition set_pm_from (m : pm) (x : bytes) : pm := mk_pm (m.(pm_to)) x (m.(pm_name)) (m.(pm_text)).
(** assignment to the field name, nmdc/msg_chat.go:113-117 *)
Definition set_pm_name (m : pm) (x : bytes) : pm := mk_pm (m.(pm_to)) (m.(pm_from)) x (m.(pm_text)).
(** assignment to the field text, nmdc/msg_chat.go:113-117 *)
Definition set_pm_text (m : pm) (x : bytes) : pm := mk_pm (m.(pm_to)) (m.(pm_from)) (m.(pm_name)) x.
(** the zero value, nmdc/msg_chat.go:113-117 *)
Definition pm0 : pm := mk_pm [] [] [] [].

(** nmdc/msg_chat.go:123-143 *)
Definition pm_marshal (enc : codec) (m : pm) : res bytes :=
  do t <- name_marshal enc m.(pm_to);
  do f <- name_marshal enc m.(pm_from);
  do n <- name_marshal enc m.(pm_name);
  do x <- string_marshal enc m.(pm_text);
  Ok (t ++ B " From: " ++ f ++ B " $<" ++ n ++ B "> " ++ x).

(** nmdc/msg_chat.go:145-183 *)
Definition pm_unmarshal (dec : codec) (m : pm) (data : bytes) : pm * res unit :=
  match cut_seq (B " From: ") data with
  | None => (m, Err (EText "no 'from' delimiter"))
  | Some (to, data) =>
      do to <- name_unmarshal dec to keeping m;
      let m := set_pm_to m to in
      match cut_seq (B " $<") data with
      | None => (m, Err (EText "no name delimiter"))
      | Some (from, data) =>
          do from <- name_unmarshal dec from keeping m;
          let m := set_pm_from m from in
          match cut_seq (B "> ") data with
          | None => (m, Err (EText "no name end delimiter"))
          | Some (name, text) =>
              do name <- name_unmarshal dec name keeping m;
              let m := set_pm_name m name in
              do text <- string_unmarshal dec text keeping m;
              (set_pm_text m text, Ok tt)
          end
      end
  end.

(** ** MCTo *)
(** nmdc/msg_chat.go:185-188 *)
Record mcto := mk_mcto { mt_to : bytes; mt_from : bytes; mt_text : bytes }.
(** assignment to the field to, nmdc/msg_chat.go:185-188 *)
Definition set_mt_to (m : mcto) (x : bytes) : mcto := mk_mcto x (m.(mt_from)) (m.(mt_text)).
(** assignment to the field from, nmdc/msg_chat.go:185-188 *)
Definition set_mt_from (m : mcto) (x : bytes) : mcto := mk_mcto (m.(mt_to)) x (m.(mt_text)).
(** assignment to the field text, nmdc/msg_chat.go:185-188 *)
Definition set_mt_text (m : mcto) (x : bytes) : mcto := mk_mcto (m.(mt_to)) (m.(mt_from)) x.
(** the zero value, nmdc/msg_chat.go:185-188 *)
Definition mcto0 : mcto := mk_mcto [] [] [].

(** nmdc/msg_chat.go:194-209 *)
Definition mcto_marshal (enc : codec) (m : mcto) : res bytes :=
  do t <- name_marshal enc m.(mt_to);
  do f <- name_marshal enc m.(mt_from);
  do x <- string_marshal enc m.(mt_text);
  Ok (t ++ B " $" ++ f ++ B " " ++ x).

(** nmdc/msg_chat.go:211-237 *)
Definition mcto_unmarshal (dec : codec) (m : mcto) (data : bytes) : mcto * res unit :=
  match cut_seq (B " $") data with
  | None => (m, Err (EText "no name delimiter"))
  | Some (to, data) =>
      do to <- name_unmarshal dec to keeping m;
      let m := set_mt_to m to in
      match cut " " data with
      | None => (m, Err (EText "no message delimiter"))
      | Some (from, text) =>
          do from <- name_unmarshal dec from keeping m;
          let m := set_mt_from m from in
          do text <- string_unmarshal dec text keeping m;
          (set_mt_text m text, Ok tt)
      end
  end.

(** ** UserCommand *)
(** nmdc/msg_chat.go:257-262; UCmdType and UCmdContext are ints *)
Record ucmd := mk_ucmd { uc_typ : Z; uc_context : Z; uc_path : list bytes; uc_command : bytes }.
(** assignment to the field typ, nmdc/msg_chat.go:257-262 *)
Definition set_uc_typ (m : ucmd) (x : Z) : ucmd := mk_ucmd x (m.(uc_context)) (m.(uc_path)) (m.(uc_command)).
(** assignment to the field context, nmdc/msg_chat.go:257-262 *)
Definition set_uc_context (m : ucmd) (x : Z) : ucmd := mk_ucmd (m.(uc_typ)) x (m.(uc_path)) (m.(uc_command)).
(** assignment to the field path, nmdc/msg_chat.go:257-262 *)
Definition set_uc_path (m : ucmd) (x : list bytes) : ucmd := mk_ucmd (m.(uc_typ)) (m.(uc_context)) x (m.(uc_command)).
(** assignment to the field command, nmdc/msg_chat.go:257-262 *)
Definition set_uc_command (m : ucmd) (x : bytes) : ucmd := mk_ucmd (m.(uc_typ)) (m.(uc_context)) (m.(uc_path)) x.
(** the zero value, nmdc/msg_chat.go:257-262 *)
Definition ucmd0 : ucmd := mk_ucmd 0 0 [] [].

(** The path loop of nmdc/msg_chat.go:276-283: strings joined by a backslash; also
    nmdc/msg_search.go:245-252. *)
Fixpoint marshal_path (enc : codec) (first : bool) (l : list bytes) : res bytes :=
  match l with
  | [] => Ok []
  | s :: r => do b <- string_marshal enc s;
              do t <- marshal_path enc false r;
              Ok ((if first then [] else B "\") ++ b ++ t)
  end.

(** nmdc/msg_chat.go:268-295 *)
Definition ucmd_marshal (enc : codec) (m : ucmd) : res bytes :=
  let bi := format_uint (to_uint64 m.(uc_typ)) ++ B " " ++ format_uint (to_uint64 m.(uc_context)) in
  do p <- match m.(uc_path) with
          | [] => Ok bi
          | l => do b <- marshal_path enc true l; Ok (bi ++ B " " ++ b)
          end;
  match m.(uc_command) with
  | [] => Ok p
  | c => do b <- string_marshal enc c; Ok (p ++ B " $" ++ b)
  end.

(** utf8.RuneStart (bytes.TrimSpace called in nmdc/msg_chat.go:298). *)
Definition rune_start (c : byte) : bool := negb ((128 <=? b2n c) && (b2n c <=? 191))%N.
(** utf8.DecodeLastRune, on the reversed string: the number of bytes to go back is found
    among the last four (bytes.TrimSpace called in nmdc/msg_chat.go:298). *)
Fixpoint back_to_start (n : nat) (r : bytes) : nat :=
  match n, r with
  | S n', c :: r' => if rune_start c then 1 else S (back_to_start n' r')
  | _, _ => 0
  end.
(** utf8.DecodeLastRune, bytes.TrimSpace called in nmdc/msg_chat.go:298 *)
Definition decode_last_rune (s : bytes) : N * nat :=
  match rev s with
  | [] => (rune_error, 0)
  | c :: r =>
      if (b2n c <? 128)%N then (b2n c, 1)
      else
        let k := Nat.min (length s) (S (back_to_start 3 r)) in
        let (x, size) := decode_rune (skipn (length s - k) s) in
        if (size =? k)%nat then (x, size) else (rune_error, 1)
  end.
(** bytes.TrimSpace (nmdc/msg_chat.go:298): unicode white space at both ends.  Fuel: one
    byte at least is removed in every round. *)
Fixpoint trim_left_space (f : nat) (s : bytes) : bytes :=
  match f with
  | O => s
  | S f' => match s with
            | [] => []
            | _ => let (r, n) := decode_rune s in if is_space_rune r then trim_left_space f' (skipn n s) else s
            end
  end.
(** The right end, bytes.TrimSpace called in nmdc/msg_chat.go:298 *)
Fixpoint trim_right_space (f : nat) (s : bytes) : bytes :=
  match f with
  | O => s
  | S f' => match s with
            | [] => []
            | _ => let (r, n) := decode_last_rune s in if is_space_rune r then trim_right_space f' (firstn (length s - n) s) else s
            end
  end.
(** bytes.TrimSpace, nmdc/msg_chat.go:298 *)
Definition trim_white (s : bytes) : bytes :=
  let s' := trim_left_space (length s) s in trim_right_space (length s') s'.

(** [arr[1][:i]] for the first rune that is not a digit, nmdc/msg_chat.go:309-313. *)
Definition is_digit_char (c : byte) : bool := ((48 <=? b2n c) && (b2n c <=? 57))%N.
(** arr[1][:i], nmdc/msg_chat.go:309-313 *)
Fixpoint take_digits (s : bytes) : bytes :=
  match s with
  | c :: t => if is_digit_char c then c :: take_digits t else []
  | [] => []
  end.

(** The path loop, nmdc/msg_chat.go:331-341: appends to [acc]. *)
Fixpoint unmarshal_path (dec : codec) (l : list bytes) (acc : list bytes) : list bytes * res unit :=
  match l with
  | [] => (acc, Ok tt)
  | [] :: r => unmarshal_path dec r acc
  | p :: r => match string_unmarshal dec p with
              | Ok s => unmarshal_path dec r (acc ++ [s])
              | Err _ => (acc, Err (EText "invalid path user command"))
              | Panic => (acc, Panic)
              end
  end.

(** nmdc/msg_chat.go:297-349 *)
Definition ucmd_unmarshal (dec : codec) (m : ucmd) (data : bytes) : ucmd * res unit :=
  match splitn_byte 3 " " (trim_white data) with
  | a0 :: a1 :: arr =>
      match atoi_trim a0 with
      | Ok t =>
          let m := set_uc_typ m t in
          match atoi_trim (take_digits a1) with
          | Ok c =>
              let m := set_uc_context m c in
              match arr with
              | val :: _ =>
                  match cut "$" val with
                  | Some (c0 :: p, rest) =>
                      let sub := split_byte "\" (trim_right_by is_sp (c0 :: p)) in
                      let '(path, r) := unmarshal_path dec sub [] in
                      let m := set_uc_path m path in
                      do u <- r keeping m;
                      do s <- string_unmarshal dec rest keeping m;
                      (set_uc_command m s, Ok tt)
                  | _ => (m, Err (EText "invalid raw user command"))
                  end
              | [] => (m, Ok tt)
              end
          | Err _ => (m, Err (EText "invalid context in user command"))
          | Panic => (m, Panic)
          end
      | Err _ => (m, Err (EText "invalid type in user command"))
      | Panic => (m, Panic)
      end
  | _ => (m, Err (EText "invalid user command"))
  end.

(** ** ConnectToMe *)
(** nmdc/msg_ctm.go:22-28; CTMKind (14-20) is an int: 0 active, 1 passive request, 2 passive response *)
Record ctm := mk_ctm { ct_targ : bytes; ct_src : bytes; ct_address : bytes; ct_kind : Z; ct_secure : bool }.
(** assignment to the field targ, nmdc/msg_ctm.go:22-28 *)
Definition set_ct_targ (m : ctm) (x : bytes) : ctm := mk_ctm x (m.(ct_src)) (m.(ct_address)) (m.(ct_kind)) (m.(ct_secure)).
(** assignment to the field src, nmdc/msg_ctm.go:22-28 *)
Definition set_ct_src (m : ctm) (x : bytes) : ctm := mk_ctm (m.(ct_targ)) x (m.(ct_address)) (m.(ct_kind)) (m.(ct_secure)).
(** assignment to the field address, nmdc/msg_ctm.go:22-28 *)
Definition set_ct_address (m : ctm) (x : bytes) : ctm := mk_ctm (m.(ct_targ)) (m.(ct_src)) x (m.(ct_kind)) (m.(ct_secure)).
(** assignment to the field kind, nmdc/msg_ctm.go:22-28 *)
Definition set_ct_kind (m : ctm) (x : Z) : ctm := mk_ctm (m.(ct_targ)) (m.(ct_src)) (m.(ct_address)) x (m.(ct_secure)).
(** assignment to the field secure, nmdc/msg_ctm.go:22-28 *)
Definition set_ct_secure (m : ctm) (x : bool) : ctm := mk_ctm (m.(ct_targ)) (m.(ct_src)) (m.(ct_address)) (m.(ct_kind)) x.
(** the zero value, nmdc/msg_ctm.go:22-28 *)
Definition ctm0 : ctm := mk_ctm [] [] [] 0 false.

(** nmdc/msg_ctm.go:34-70 *)
Definition ctm_marshal (enc : codec) (m : ctm) : res bytes :=
  match m.(ct_targ) with
  | [] => Err (EText "ConnectToMe target should be set")
  | targ =>
      do t <- name_marshal enc targ;
      do k <- (if (m.(ct_kind) =? 0)%Z then Ok []
               else if (m.(ct_kind) =? 1)%Z then Ok (B "N")
               else if (m.(ct_kind) =? 2)%Z then Ok (B "R")
               else Err (EText "unknown ConnectToMe kind"));
      let b := t ++ B " " ++ m.(ct_address) ++ k ++ (if m.(ct_secure) then B "S" else []) in
      if (m.(ct_kind) =? 1)%Z then
        match m.(ct_src) with
        | [] => Err (EText "passive ConnectToMe requests should have a source")
        | src => do s <- name_marshal enc src; Ok (b ++ B " " ++ s)
        end
      else match m.(ct_src) with
           | [] => Ok b
           | _ => Err (EText "only passive ConnectToMe requests should have a source")
           end
  end.

(** [addr[l-1] == c] and [addr[:l-1]] (nmdc/msg_ctm.go:94-108). *)
Definition last_is (c : byte) (s : bytes) : bool := match rev s with x :: _ => beq x c | [] => false end.
(** addr[:l-1], nmdc/msg_ctm.go:94-108 *)
Definition drop_last (s : bytes) : bytes := firstn (length s - 1) s.

(** nmdc/msg_ctm.go:72-111 *)
Definition ctm_unmarshal (dec : codec) (m : ctm) (data : bytes) : ctm * res unit :=
  match cut " " data with
  | None => (m, Err (EText "invalid ConnectToMe command"))
  | Some (t, data) =>
      do targ <- name_unmarshal dec t keeping m;
      let m := set_ct_targ m targ in
      let finish m addr :=
        let '(m, addr) := if last_is "S" addr then (set_ct_secure m true, drop_last addr) else (m, addr) in
        let m := set_ct_kind m 0 in
        let '(m, addr) := if last_is "N" addr then (set_ct_kind m 1, drop_last addr)
                          else if last_is "R" addr then (set_ct_kind m 2, drop_last addr)
                          else (m, addr) in
        (set_ct_address m addr, Ok tt) in
      match cut " " data with
      | Some (addr, s) =>
          do src <- name_unmarshal dec s keeping m;
          finish (set_ct_src m src) addr
      | None => finish m data
      end
  end.

(** ** RevConnectToMe *)
(** nmdc/msg_ctm.go:113-115 *)
Record rctm := mk_rctm { rc_from : bytes; rc_to : bytes }.
(** assignment to the field from, nmdc/msg_ctm.go:113-115 *)
Definition set_rc_from (m : rctm) (x : bytes) : rctm := mk_rctm x (m.(rc_to)).
(** assignment to the field to, nmdc/msg_ctm.go:113-115 *)
Definition set_rc_to (m : rctm) (x : bytes) : rctm := mk_rctm (m.(rc_from)) x.
(** the zero value, nmdc/msg_ctm.go:113-115 *)
Definition rctm0 : rctm := mk_rctm [] [].

(** nmdc/msg_ctm.go:121-130 *)
Definition rctm_marshal (enc : codec) (m : rctm) : res bytes :=
  do f <- name_marshal enc m.(rc_from);
  do t <- name_marshal enc m.(rc_to);
  Ok (f ++ B " " ++ t).

(** nmdc/msg_ctm.go:132-150 *)
Definition rctm_unmarshal (dec : codec) (m : rctm) (data : bytes) : rctm * res unit :=
  match cut " " data with
  | None => (m, Err (EText "invalid RevConnectToMe command"))
  | Some (f, t) =>
      do from <- name_unmarshal dec f keeping m;
      let m := set_rc_from m from in
      do to <- name_unmarshal dec t keeping m;
      (set_rc_to m to, Ok tt)
  end.
