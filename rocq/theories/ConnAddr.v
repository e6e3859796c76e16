(** Addresses: conn.go, adc/conn.go, nmdc/conn.go. *)
From Verif Require Import Base.

(** url.URL as far as the code looks at it (adc/conn.go:20-28, nmdc/conn.go:22-33); [u_rest]
    stands for all other fields. *)
Record url := mkUrl { u_scheme : bytes; u_host : bytes; u_path : bytes; u_rest : bytes }.

(** net.SplitHostPort (adc/conn.go:37, nmdc/conn.go:42,45) *)
Definition split_host_port (hp : bytes) : res (bytes * bytes) :=
  match last_cut ":"%byte hp with
  | None => Err (EText "missing port in address")
  | Some (before, port) =>
      match hp with
      | [] => Panic
      | c :: hp1 =>
          if beq c "["%byte then
            match cut "]"%byte hp with
            | None => Err (EText "missing ']' in address")
            | Some (h, after) =>
                match after with
                | [] => Err (EText "missing port in address")
                | d :: after1 =>
                    if Nat.eqb (length before) (S (length h)) then
                      if contains_byte "["%byte hp1 then Err (EText "unexpected '[' in address")
                      else if contains_byte "]"%byte after then Err (EText "unexpected ']' in address")
                      else Ok (skipn 1 h, port)
                    else if beq d ":"%byte then Err (EText "too many colons in address")
                    else Err (EText "missing port in address")
                end
            end
          else
            if contains_byte ":"%byte before then Err (EText "too many colons in address")
            else if contains_byte "["%byte hp then Err (EText "unexpected '[' in address")
            else if contains_byte "]"%byte hp then Err (EText "unexpected ']' in address")
            else Ok (before, port)
      end
  end.

Section Parse.
(** url.Parse and URL.String (adc/conn.go:20,43, nmdc/conn.go:22,54) *)
Variable parse : bytes -> res url.
Variable url_string : url -> bytes.

(** u.Path = strings.TrimRight(u.Path, "/") (adc/conn.go:27, nmdc/conn.go:32) *)
Definition trim_path (u : url) : url :=
  mkUrl (u_scheme u) (u_host u) (trim_right_by (fun b => beq b "/"%byte) (u_path u)) (u_rest u).

(** adc.ParseAddr (adc/conn.go:19-29).  With the error of an unsupported protocol the URL is
    returned too, which no caller in the repository uses. *)
Definition adc_parse_addr (addr : bytes) : res url :=
  do u <- parse addr;
  if negb (bytes_eqb (u_scheme u) (B "adc")) && negb (bytes_eqb (u_scheme u) (B "adcs"))
  then Err (EText "unsupported protocol") else Ok (trim_path u).

(** adc.NormalizeAddr (adc/conn.go:32-44) *)
Definition adc_normalize_addr (addr : bytes) : res bytes :=
  do u <- adc_parse_addr addr;
  match split_host_port (u_host u) with
  | Panic => Panic
  | Err _ => Err (EText "failed to parse host-port pair")
  | Ok (host, _) => match host with [] => Err (EText "no hostname in address") | _ => Ok (url_string u) end
  end.

(** nmdc.ParseAddr (nmdc/conn.go:18-34) *)
Definition nmdc_parse_addr (addr : bytes) : res url :=
  let addr := match index (B "://") addr with Some _ => addr | None => B "dchub" ++ B "://" ++ addr end in
  do u <- parse addr;
  let u := if bytes_eqb (u_scheme u) (B "nmdc") then mkUrl (B "dchub") (u_host u) (u_path u) (u_rest u) else u in
  if negb (bytes_eqb (u_scheme u) (B "dchub")) && negb (bytes_eqb (u_scheme u) (B "nmdcs"))
  then Err (EText "unsupported protocol") else Ok (trim_path u).

(** nmdc.NormalizeAddr (nmdc/conn.go:37-55) *)
Definition nmdc_normalize_addr (addr : bytes) : res bytes :=
  do u <- nmdc_parse_addr addr;
  do p <- match split_host_port (u_host u) with
          | Ok p => Ok p
          | Panic => Panic
          | Err e => match split_host_port (u_host u ++ B ":" ++ B "411") with
                     | Ok p => Ok p
                     | Panic => Panic
                     | Err _ => Err e
                     end
          end;
  match fst p with [] => Err (EText "no hostname in address") | _ => Ok (url_string u) end.

(** dc.ParseAddr (conn.go:12-17) *)
Definition dc_parse_addr (addr : bytes) : res url :=
  if has_prefix (B "adc") addr then adc_parse_addr addr else nmdc_parse_addr addr.

(** dc.NormalizeAddr (conn.go:20-25) *)
Definition dc_normalize_addr (addr : bytes) : res bytes :=
  if has_prefix (B "adc") addr then adc_normalize_addr addr else nmdc_normalize_addr addr.
End Parse.
