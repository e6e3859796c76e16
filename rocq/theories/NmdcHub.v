(** nmdc/msg_errors.go, msg_hub.go, msg_lock.go, msg_other.go, msg_pass.go, msg_ping.go,
    msg_user_list.go and nmdc/extensions.go.  Conventions as in NmdcChat.v. *)
From Verif Require Import Base Num Utf8 NmdcText NmdcChat.

(** ** Uniform messages *)

(** Messages which embed Name: Hello (nmdc/msg_hub.go:17-23), Kick, Close
    (nmdc/msg_other.go:35-51), ValidateNick, ValidateDenide, MyNick, Quit, LogedIn
    (nmdc/msg_user.go:25-65). *)
Definition name_msg_unmarshal (dec : codec) (m data : bytes) : bytes * res unit :=
  do s <- name_unmarshal dec data keeping m; (s, Ok tt).

(** Messages which embed String or hold one: HubName, HubTopic (nmdc/msg_hub.go:25-31,59-78),
    SetTopic (nmdc/msg_other.go:65-71), MyPass (nmdc/msg_pass.go:9-15), BotINFO, SetIcon,
    SetLogo (nmdc/msg_ping.go:20-42). *)
Definition string_msg_unmarshal (dec : codec) (m data : bytes) : bytes * res unit :=
  do s <- string_unmarshal dec data keeping m; (s, Ok tt).

(** Messages which embed NoArgs, nmdc/types.go:68-79: HubIsFull, ZOn (nmdc/msg_hub.go:33-39,
    109-115), MaxedOut (nmdc/msg_files.go:255-261), GetTopic (nmdc/msg_other.go:55-61),
    BadPass, GetPass (nmdc/msg_pass.go:17-31), GetNickList (nmdc/msg_user_list.go:15-21). *)
Definition noargs_unmarshal (data : bytes) : res unit :=
  match data with [] => Ok tt | _ => Err (EText "unexpected argument for the command") end.

(** Failed and Error, nmdc/msg_errors.go:13-69: the error is nil or has a text. *)
Definition err_marshal (enc : codec) (m : option bytes) : res bytes :=
  match m with None => Ok [] | Some t => string_marshal enc t end.
(** UnmarshalNMDC of Failed and Error, nmdc/msg_errors.go:13-69 *)
Definition err_unmarshal (dec : codec) (m : option bytes) (data : bytes) : option bytes * res unit :=
  do s <- string_unmarshal dec data keeping m;
  (match s with [] => m | _ => Some s end, Ok tt).

(** ** FailOver, nmdc/msg_hub.go:80-105 *)
Definition failover_marshal (m : list bytes) : bytes := join (B ",") m.
(** nmdc/msg_hub.go:98-105 *)
Definition failover_unmarshal (data : bytes) : list bytes := split_byte "," data.

(** ** Supports, nmdc/extensions.go:22-71 *)
Definition supports_marshal (m : list bytes) : bytes := join (B " ") m.
(** Supports.UnmarshalNMDC, nmdc/extensions.go:60-71 *)
Definition supports_unmarshal (data : bytes) : list bytes :=
  filter (fun b => match b with [] => false | _ => true end) (split_byte " " (trim_by is_sp data)).

(** Supports.Intersect, nmdc/extensions.go:31-43 *)
Definition has_ext (e : bytes) (l : list bytes) : bool := existsb (bytes_eqb e) l.
(** Supports.Intersect, nmdc/extensions.go:31-43 *)
Definition supports_intersect (m m2 : list bytes) : list bytes := filter (fun e => has_ext e m) m2.

(** ** Extensions, nmdc/extensions.go:74-120: a map used as a set, represented by the list of
    its keys in iteration order (without duplicates). *)
Definition ext_has (f : list bytes) (name : bytes) : bool := has_ext name f.
(** Extensions.Set, nmdc/extensions.go:81-83 *)
Definition ext_set (f : list bytes) (name : bytes) : list bytes := if has_ext name f then f else f ++ [name].
(** Extensions.Clone, nmdc/extensions.go:85-91 *)
Definition ext_clone (f : list bytes) : list bytes := fold_left ext_set f [].
(** Extensions.Intersect, nmdc/extensions.go:93-101 *)
Definition ext_intersect (f f2 : list bytes) : list bytes :=
  fold_left (fun m n => if has_ext n f then ext_set m n else m) f2 [].
(** Extensions.IntersectList, nmdc/extensions.go:103-111 *)
Definition ext_intersect_list (f f2 : list bytes) : list bytes :=
  fold_left (fun m n => if has_ext n f then ext_set m n else m) f2 [].
(** Go string order, used by sort.Strings (nmdc/extensions.go:118). *)
Fixpoint bytes_leb (a b : bytes) : bool :=
  match a, b with
  | [], _ => true
  | _ :: _, [] => false
  | x :: a', y :: b' => if (b2n x <? b2n y)%N then true else if (b2n y <? b2n x)%N then false else bytes_leb a' b'
  end.
(** sort.Strings (nmdc/extensions.go:118) as an insertion sort; the result of sorting does
    not depend on the algorithm. *)
Fixpoint insert_sorted (x : bytes) (l : list bytes) : list bytes :=
  match l with
  | [] => [x]
  | y :: r => if bytes_leb x y then x :: l else y :: insert_sorted x r
  end.
(** sort.Strings, nmdc/extensions.go:118 *)
Definition sort_strings (l : list bytes) : list bytes := fold_right insert_sorted [] l.
(** Extensions.List, nmdc/extensions.go:113-120 *)
Definition ext_list (f : list bytes) : list bytes := sort_strings f.

(** ** Lock and Key *)
(** nmdc/msg_lock.go:27-32 *)
Record lock := mk_lock { lk_noext : bool; lk_lock : bytes; lk_pk : bytes; lk_ref : bytes }.
(** assignment to the field noext, nmdc/msg_lock.go:27-32 *)
Definition set_lk_noext (m : lock) (x : bool) : lock := mk_lock x (m.(lk_lock)) (m.(lk_pk)) (m.(lk_ref)).
(** assignment to the field lock, nmdc/msg_lock.go:27-32 *)
Definition set_lk_lock (m : lock) (x : bytes) : lock := mk_lock (m.(lk_noext)) x (m.(lk_pk)) (m.(lk_ref)).
(** assignment to the field pk, nmdc/msg_lock.go:27-32 *)
Definition set_lk_pk (m : lock) (x : bytes) : lock := mk_lock (m.(lk_noext)) (m.(lk_lock)) x (m.(lk_ref)).
(** assignment to the field ref, nmdc/msg_lock.go:27-32 *)
Definition set_lk_ref (m : lock) (x : bytes) : lock := mk_lock (m.(lk_noext)) (m.(lk_lock)) (m.(lk_pk)) x.
(** the zero value, nmdc/msg_lock.go:27-32 *)
Definition lock0 : lock := mk_lock false [] [] [].

(** nmdc/extensions.go:13 *)
Definition ext_lock_pref : bytes := B "EXTENDEDPROTOCOL".

(** nmdc/msg_lock.go:38-55 *)
Definition lock_marshal (m : lock) : bytes :=
  (if m.(lk_noext) then [] else ext_lock_pref) ++ m.(lk_lock) ++
  match m.(lk_pk) with [] => [] | pk => B " Pk=" ++ pk end ++
  match m.(lk_ref) with
  | [] => []
  | ref => (match m.(lk_pk) with [] => B " " | _ => [] end) ++ B "Ref=" ++ ref
  end.

(** nmdc/msg_lock.go:57-84: the old value is overwritten. *)
Definition lock_unmarshal (data : bytes) : lock :=
  let '(noext, data) := if has_prefix ext_lock_pref data then (false, skipn (length ext_lock_pref) data) else (true, data) in
  match cut " " data with
  | None => mk_lock noext data [] []
  | Some (l, data) =>
      let data := trim_prefix (B "Pk=") data in
      match cut_seq (B "Ref=") data with
      | Some (pk, ref) => mk_lock noext l pk ref
      | None => mk_lock noext l data []
      end
  end.

(** Lock.LockString, nmdc/msg_lock.go:86-99 *)
Definition lock_string (m : lock) (full : bool) : bytes :=
  if full then lock_marshal m
  else (if m.(lk_noext) then [] else ext_lock_pref) ++ m.(lk_lock).

(** Operations on bytes used by CustomKey (nmdc/msg_lock.go:107-131). *)
Definition bxor (a b : byte) : byte := n2b (N.lxor (b2n a) (b2n b)).
(** nmdc/msg_lock.go:119 *)
Definition swap_nibbles (a : byte) : byte :=
  n2b (N.lor (N.land (N.shiftl (b2n a) 4) 240) (N.land (N.shiftr (b2n a) 4) 15)).
(** The second loop, nmdc/msg_lock.go:114-116. *)
Fixpoint xor_chain (prev : byte) (l : bytes) : bytes :=
  match l with
  | [] => []
  | c :: t => bxor c prev :: xor_chain c t
  end.
(** keyReplace, nmdc/msg_lock.go:10-17 *)
Definition key_replace (c : byte) : bytes :=
  if beq c x00 then B "/%DCN000%/"
  else if beq c x05 then B "/%DCN005%/"
  else if beq c "$" then B "/%DCN036%/"
  else if beq c "`" then B "/%DCN096%/"
  else if beq c "|" then B "/%DCN124%/"
  else if beq c "~" then B "/%DCN126%/"
  else [c].
(** Lock.CustomKey, nmdc/msg_lock.go:107-131: indexing panics for locks shorter than two bytes. *)
Definition custom_key (m : lock) (magic : byte) (full : bool) : res bytes :=
  let l := lock_string m full in
  match l, rev l with
  | c0 :: t, last :: before :: _ =>
      let key := bxor (bxor (bxor c0 last) before) magic :: xor_chain c0 t in
      Ok (flat_map key_replace (map swap_nibbles key))
  | _, _ => Panic
  end.
(** Lock.Key, nmdc/msg_lock.go:102-104 *)
Definition lock_key (m : lock) : res bytes := custom_key m x05 false.

(** ** HubINFO *)
(** nmdc/msg_ping.go:45-57, types/types.go:3-6 (Software) *)
Record hubinfo := mk_hubinfo { hi_name : bytes; hi_host : bytes; hi_desc : bytes; hi_i1 : Z; hi_i2 : Z; hi_i3 : Z; hi_i4 : Z; hi_soft : bytes; hi_vers : bytes; hi_owner : bytes; hi_state : bytes; hi_encoding : bytes }.
(** assignment to the field name, nmdc/msg_ping.go:45-57 *)
Definition set_hi_name (m : hubinfo) (x : bytes) : hubinfo := mk_hubinfo x (m.(hi_host)) (m.(hi_desc)) (m.(hi_i1)) (m.(hi_i2)) (m.(hi_i3)) (m.(hi_i4)) (m.(hi_soft)) (m.(hi_vers)) (m.(hi_owner)) (m.(hi_state)) (m.(hi_encoding)).
(** assignment to the field host, nmdc/msg_ping.go:45-57 *)
Definition set_hi_host (m : hubinfo) (x : bytes) : hubinfo := mk_hubinfo (m.(hi_name)) x (m.(hi_desc)) (m.(hi_i1)) (m.(hi_i2)) (m.(hi_i3)) (m.(hi_i4)) (m.(hi_soft)) (m.(hi_vers)) (m.(hi_owner)) (m.(hi_state)) (m.(hi_encoding)).
(** assignment to the field desc, nmdc/msg_ping.go:45-57 *)
Definition set_hi_desc (m : hubinfo) (x : bytes) : hubinfo := mk_hubinfo (m.(hi_name)) (m.(hi_host)) x (m.(hi_i1)) (m.(hi_i2)) (m.(hi_i3)) (m.(hi_i4)) (m.(hi_soft)) (m.(hi_vers)) (m.(hi_owner)) (m.(hi_state)) (m.(hi_encoding)).
(** assignment to the field i1, nmdc/msg_ping.go:45-57 *)
Definition set_hi_i1 (m : hubinfo) (x : Z) : hubinfo := mk_hubinfo (m.(hi_name)) (m.(hi_host)) (m.(hi_desc)) x (m.(hi_i2)) (m.(hi_i3)) (m.(hi_i4)) (m.(hi_soft)) (m.(hi_vers)) (m.(hi_owner)) (m.(hi_state)) (m.(hi_encoding)).
(** assignment to the field i2, nmdc/msg_ping.go:45-57 *)
Definition set_hi_i2 (m : hubinfo) (x : Z) : hubinfo := mk_hubinfo (m.(hi_name)) (m.(hi_host)) (m.(hi_desc)) (m.(hi_i1)) x (m.(hi_i3)) (m.(hi_i4)) (m.(hi_soft)) (m.(hi_vers)) (m.(hi_owner)) (m.(hi_state)) (m.(hi_encoding)).
(** assignment to the field i3, nmdc/msg_ping.go:45-57 *)
Definition set_hi_i3 (m : hubinfo) (x : Z) : hubinfo := mk_hubinfo (m.(hi_name)) (m.(hi_host)) (m.(hi_desc)) (m.(hi_i1)) (m.(hi_i2)) x (m.(hi_i4)) (m.(hi_soft)) (m.(hi_vers)) (m.(hi_owner)) (m.(hi_state)) (m.(hi_encoding)).
(** assignment to the field i4, nmdc/msg_ping.go:45-57 *)
Definition set_hi_i4 (m : hubinfo) (x : Z) : hubinfo := mk_hubinfo (m.(hi_name)) (m.(hi_host)) (m.(hi_desc)) (m.(hi_i1)) (m.(hi_i2)) (m.(hi_i3)) x (m.(hi_soft)) (m.(hi_vers)) (m.(hi_owner)) (m.(hi_state)) (m.(hi_encoding)).
(** assignment to the field soft, nmdc/msg_ping.go:45-57 *)
Definition set_hi_soft (m : hubinfo) (x : bytes) : hubinfo := mk_hubinfo (m.(hi_name)) (m.(hi_host)) (m.(hi_desc)) (m.(hi_i1)) (m.(hi_i2)) (m.(hi_i3)) (m.(hi_i4)) x (m.(hi_vers)) (m.(hi_owner)) (m.(hi_state)) (m.(hi_encoding)).
(** assignment to the field vers, nmdc/msg_ping.go:45-57 *)
Definition set_hi_vers (m : hubinfo) (x : bytes) : hubinfo := mk_hubinfo (m.(hi_name)) (m.(hi_host)) (m.(hi_desc)) (m.(hi_i1)) (m.(hi_i2)) (m.(hi_i3)) (m.(hi_i4)) (m.(hi_soft)) x (m.(hi_owner)) (m.(hi_state)) (m.(hi_encoding)).
(** assignment to the field owner, nmdc/msg_ping.go:45-57 *)
Definition set_hi_owner (m : hubinfo) (x : bytes) : hubinfo := mk_hubinfo (m.(hi_name)) (m.(hi_host)) (m.(hi_desc)) (m.(hi_i1)) (m.(hi_i2)) (m.(hi_i3)) (m.(hi_i4)) (m.(hi_soft)) (m.(hi_vers)) x (m.(hi_state)) (m.(hi_encoding)).
(** assignment to the field state, nmdc/msg_ping.go:45-57 *)
Definition set_hi_state (m : hubinfo) (x : bytes) : hubinfo := mk_hubinfo (m.(hi_name)) (m.(hi_host)) (m.(hi_desc)) (m.(hi_i1)) (m.(hi_i2)) (m.(hi_i3)) (m.(hi_i4)) (m.(hi_soft)) (m.(hi_vers)) (m.(hi_owner)) x (m.(hi_encoding)).
(** assignment to the field encoding, nmdc/msg_ping.go:45-57 *)
Definition set_hi_encoding (m : hubinfo) (x : bytes) : hubinfo := mk_hubinfo (m.(hi_name)) (m.(hi_host)) (m.(hi_desc)) (m.(hi_i1)) (m.(hi_i2)) (m.(hi_i3)) (m.(hi_i4)) (m.(hi_soft)) (m.(hi_vers)) (m.(hi_owner)) (m.(hi_state)) x.
(** the zero value, nmdc/msg_ping.go:45-57 *)
Definition hubinfo0 : hubinfo := mk_hubinfo [] [] [] 0 0 0 0 [] [] [] [] [].

(** nmdc/msg_ping.go:63-108 *)
Definition hubinfo_marshal (enc : codec) (m : hubinfo) : res bytes :=
  do n <- string_marshal enc m.(hi_name);
  do d <- string_marshal enc m.(hi_desc);
  do o <- string_marshal enc m.(hi_owner);
  do s <- string_marshal enc m.(hi_state);
  Ok (n ++ B "$" ++ m.(hi_host) ++ B "$" ++ d ++ B "$" ++
      format_int m.(hi_i1) ++ B "$" ++ format_int m.(hi_i2) ++ B "$" ++
      format_int m.(hi_i3) ++ B "$" ++ format_int m.(hi_i4) ++ B "$" ++
      (match m.(hi_vers) with [] => m.(hi_soft) | v => m.(hi_soft) ++ B " " ++ v end) ++ B "$" ++
      o ++ B "$" ++ s ++ B "$" ++ m.(hi_encoding)).

(** One round of the loop, nmdc/msg_ping.go:112-178, for the field number [i] of [n]. *)
Definition hubinfo_field (dec : codec) (n i : nat) (m : hubinfo) (field : bytes) : hubinfo * res unit :=
  match i with
  | 0 => do s <- string_unmarshal dec field keeping m; (set_hi_name m s, Ok tt)
  | 1 => (set_hi_host m field, Ok tt)
  | 2 => do s <- string_unmarshal dec field keeping m; (set_hi_desc m s, Ok tt)
  | 3 => match atoi_trim field with Ok z => (set_hi_i1 m z, Ok tt) | Err _ => (m, Err (EText "invalid i1")) | Panic => (m, Panic) end
  | 4 => match atoi_trim field with Ok z => (set_hi_i2 m z, Ok tt) | Err _ => (m, Err (EText "invalid i2")) | Panic => (m, Panic) end
  | 5 => match atoi_trim field with Ok z => (set_hi_i3 m z, Ok tt) | Err _ => (m, Err (EText "invalid i3")) | Panic => (m, Panic) end
  | 6 => match atoi_trim field with Ok z => (set_hi_i4 m z, Ok tt) | Err _ => (m, Err (EText "invalid i4")) | Panic => (m, Panic) end
  | 7 => match last_cut " " field with
         | Some (nm, v) => (set_hi_vers (set_hi_soft m nm) v, Ok tt)
         | None => (set_hi_soft m field, Ok tt)
         end
  | 8 => do s <- string_unmarshal dec field keeping m; (set_hi_owner m s, Ok tt)
  | 9 => do s <- string_unmarshal dec field keeping m; (set_hi_state m s, Ok tt)
  | 10 => (if (n <? 12)%nat then set_hi_encoding m field else m, Ok tt)
  | _ => (m, Ok tt)
  end.
(** The loop over the fields, nmdc/msg_ping.go:112-178 *)
Fixpoint hubinfo_fields (dec : codec) (n i : nat) (m : hubinfo) (fields : list bytes) : hubinfo * res unit :=
  match fields with
  | [] => (m, Ok tt)
  | f :: r => let '(m, e) := hubinfo_field dec n i m f in
              do u <- e keeping m;
              hubinfo_fields dec n (S i) m r
  end.
(** nmdc/msg_ping.go:110-180 *)
Definition hubinfo_unmarshal (dec : codec) (m : hubinfo) (data : bytes) : hubinfo * res unit :=
  let fields := splitn_byte 13 "$" data in hubinfo_fields dec (length fields) 0 m fields.

(** ** Names (OpList, BotList) *)

(** nmdc/msg_user_list.go:50-62 *)
Fixpoint names_loop (enc : codec) (l : list bytes) : res bytes :=
  match l with
  | [] => Ok []
  | n :: r => do b <- name_marshal enc n; do t <- names_loop enc r; Ok (b ++ B "$$" ++ t)
  end.
(** Names.MarshalNMDC, nmdc/msg_user_list.go:50-62 *)
Definition names_marshal (enc : codec) (m : list bytes) : res bytes :=
  match m with [] => Ok (B "$$") | _ => names_loop enc m end.
(** nmdc/msg_user_list.go:64-83 *)
Fixpoint names_sub (dec : codec) (l : list bytes) : res (list bytes) :=
  match l with
  | [] => Ok []
  | b :: r => do n <- name_unmarshal dec b; do t <- names_sub dec r; Ok (n :: t)
  end.
(** Names.UnmarshalNMDC, nmdc/msg_user_list.go:64-83 *)
Definition names_unmarshal (dec : codec) (m : list bytes) (data : bytes) : list bytes * res unit :=
  match trim_suffix (B "$$") data with
  | [] => ([], Ok tt)
  | d => do l <- names_sub dec (split_seq (B "$$") d) keeping m; (l, Ok tt)
  end.

(** ** UserIP: names and addresses *)

(** nmdc/msg_user_list.go:85-108 *)
Fixpoint userip_marshal (enc : codec) (m : list (bytes * bytes)) : res bytes :=
  match m with
  | [] => Ok []
  | (n, ip) :: r => do b <- name_marshal enc n; do t <- userip_marshal enc r; Ok (b ++ B " " ++ ip ++ B "$$" ++ t)
  end.
(** nmdc/msg_user_list.go:110-130: the list is replaced and grows until an error. *)
Fixpoint userip_sub (dec : codec) (l : list bytes) (acc : list (bytes * bytes)) : list (bytes * bytes) * res unit :=
  match l with
  | [] => (acc, Ok tt)
  | s :: r =>
      let '(n, ip) := match last_cut " " s with Some (n, ip) => (n, ip) | None => (s, []) end in
      do name <- name_unmarshal dec n keeping acc;
      userip_sub dec r (acc ++ [(name, ip)])
  end.
(** UserIP.UnmarshalNMDC, nmdc/msg_user_list.go:110-130 *)
Definition userip_unmarshal (dec : codec) (data : bytes) : list (bytes * bytes) * res unit :=
  userip_sub dec (split_seq (B "$$") (trim_suffix (B "$$") (trim_suffix [x0d] data))) [].
