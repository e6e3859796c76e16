(** Decimal numbers: strconv formatting/parsing as used by go-dc and the
    hand-written parsers of nmdc/utils.go. *)
From Verif Require Import Base.

(** range of uint64, nmdc/utils.go:84-114 *)
Definition two64 : N := 18446744073709551616%N.
(** range of int64, adc/marshal.go:60, nmdc/utils.go:81 *)
Definition two63 : Z := 9223372036854775808%Z.

(** Range of Go [int]/[int64] and [uint64] (e.g. nmdc/msg_files.go:16-23, nmdc/msg_ping.go:45-57). *)
Definition is_int64 (z : Z) : Prop := (- two63 <= z < two63)%Z.
(** range of uint64, e.g. nmdc/msg_files.go:127-133 *)
Definition is_uint64 (n : N) : Prop := (n < two64)%N.

(** Go conversion [int64(u)] of a uint64 (nmdc/msg_files.go:98, lineproto/reader.go:288). *)
Definition to_int64 (n : N) : Z :=
  let z := (Z.of_N (n mod two64))%Z in
  if (z <? two63)%Z then z else (z - 2 * two63)%Z.

(** Go conversion [uint64(i)] of an int64 (nmdc/msg_chat.go:270-272). *)
Definition to_uint64 (z : Z) : N := Z.to_N (z mod (2 * two63))%Z.

(** strconv.AppendUint(_, n, 10) / strconv.Itoa (nmdc/msg_search.go:78, nmdc/msg_user.go:189). *)
Definition digit (d : N) : byte := n2b (48 + d).
(** strconv.AppendUint, nmdc/msg_search.go:78, nmdc/msg_user.go:189; fuel: the number of binary digits *)
Fixpoint fmt_fuel (f : nat) (n : N) (acc : bytes) : bytes :=
  match f with
  | O => acc
  | S f' =>
      let acc' := digit (n mod 10) :: acc in
      if (n / 10 =? 0)%N then acc' else fmt_fuel f' (n / 10)%N acc'
  end.
(** strconv.AppendUint(_, n, 10), nmdc/msg_search.go:78, nmdc/msg_user.go:189 *)
Definition format_uint (n : N) : bytes := fmt_fuel (S (N.to_nat (N.log2 n))) n [].

(** strconv.AppendInt / FormatInt / Itoa for signed numbers (nmdc/msg_user.go:148-155,
    nmdc/msg_files.go:40, adc/files.go:50-52). *)
Definition format_int (z : Z) : bytes :=
  if (z <? 0)%Z then "-"%byte :: format_uint (Z.to_N (- z)) else format_uint (Z.to_N z).

(** Value of a digit byte with Go byte arithmetic [ch -= '0'] (nmdc/utils.go:70):
    wraps modulo 256, so any non-digit is greater than 9. *)
Definition digit_val (c : byte) : N := ((b2n c + 256 - 48) mod 256)%N.
(** ch > 9 after ch -= 48, nmdc/utils.go:69-73 *)
Definition is_digit (c : byte) : bool := (digit_val c <=? 9)%N.

(** Unbounded digit loop shared by the strconv models: [None] on a non-digit
    (adc/marshal.go:60, nmdc/utils.go:81). *)
Fixpoint digits_acc (acc : N) (s : bytes) : option N :=
  match s with
  | [] => Some acc
  | c :: t => if is_digit c then digits_acc (acc * 10 + digit_val c)%N t else None
  end.

(** strconv.ParseInt(s, 10, 64) / strconv.Atoi (adc/marshal.go:60,
    nmdc/utils.go:81): optional sign, at least one digit, range check. *)
Definition parse_int64 (s : bytes) : res Z :=
  match s with
  | [] => Err (EText "syntax")
  | c :: t =>
      let neg := beq c "-" in
      let ds := if (neg || beq c "+")%bool then t else s in
      match ds with
      | [] => Err (EText "syntax")
      | _ =>
          match digits_acc 0 ds with
          | None => Err (EText "syntax")
          | Some n =>
              let z := if neg then (- Z.of_N n)%Z else Z.of_N n in
              if ((- two63 <=? z) && (z <? two63))%Z%bool then Ok z
              else Err (EText "range")
          end
      end
  end.

(** the byte ' ' of nmdc/utils.go:32-46 *)
Definition is_sp (c : byte) : bool := beq c " ".

(** nmdc/utils.go:32-46.  A string of spaces only is returned unchanged because
    neither loop reaches its break. *)
Definition trim_space (s : bytes) : bytes :=
  let s1 := match drop_while is_sp s with [] => s | t => t end in
  match drop_while is_sp (rev s1) with [] => s1 | t => rev t end.

(** Fast path loop of nmdc/utils.go:68-75. *)
Fixpoint atoi_loop (n : Z) (s : bytes) : res Z :=
  match s with
  | [] => Ok n
  | c :: t => if (9 <? digit_val c)%N then Err (EText "syntax")
              else atoi_loop (n * 10 + Z.of_N (digit_val c))%Z t
  end.

(** nmdc/utils.go:48-82 *)
Definition atoi_trim (s0 : bytes) : res Z :=
  match s0 with
  | [] => Err (EText "syntax")
  | _ =>
      let s := trim_space s0 in
      match s with
      | [] => Err (EText "syntax")
      | c :: t =>
          if (length s <? 10)%nat then
            let ds := if (beq c "-" || beq c "+")%bool then t else s in
            match ds with
            | [] => Err (EText "syntax")
            | _ => do n <- atoi_loop 0 ds;
                   Ok (if beq c "-" then (- n)%Z else n)
            end
          else parse_int64 s
      end
  end.

(** The value of the digits a text starts with (strconv.ParseInt, adc/files.go:81, nmdc/utils.go:81). *)
Fixpoint leading_value (acc : N) (s : bytes) : N :=
  match s with
  | [] => acc
  | c :: t => if is_digit c then leading_value (acc * 10 + digit_val c)%N t else acc
  end.
(** The number strconv.ParseInt(s, 10, 64) returns, which it does beside an error too: zero, or the
    nearest number if it is out of range.  ParseUint reports the range as soon as the digits exceed 64 bits,
    whatever follows them (adc/files.go:81,93, nmdc/utils.go:81). *)
Definition parse_int64_value (s : bytes) : Z :=
  let neg := has_prefix (B "-") s in
  let nearest := if neg then (- two63)%Z else (two63 - 1)%Z in
  match parse_int64 s with
  | Ok z => z
  | Err (EText "range") => nearest
  | _ =>
      let ds := if (neg || has_prefix (B "+") s)%bool then tl s else s in
      if (two64 <=? leading_value 0 ds)%N then nearest else 0%Z
  end.
(** The number atoiTrim returns, beside an error too: nmdc/utils.go:48-82, strconv.Atoi in line 81 *)
Definition atoi_value (s : bytes) : Z :=
  match atoi_trim s with
  | Ok z => z
  | _ => if (length (trim_space s) <? 10)%nat then 0%Z else parse_int64_value (trim_space s)
  end.

(** cutoff of nmdc/utils.go:92: math.MaxUint64/10 + 1 *)
Definition cutoff : N := 1844674407370955162%N.

(** Loop of nmdc/utils.go:94-112 with explicit 64-bit wrap-around. *)
Fixpoint parse_uint_loop (n : N) (s : bytes) : res N :=
  match s with
  | [] => Ok n
  | c :: t =>
      if ((b2n c <? 48) || (57 <? b2n c))%N%bool then Err (EText "syntax")
      else
        let d := (b2n c - 48)%N in
        if (cutoff <=? n)%N then Err (EText "syntax")
        else
          let n10 := ((n * 10) mod two64)%N in
          let n1 := ((n10 + d) mod two64)%N in
          if ((n1 <? n10) || (two64 - 1 <? n1))%N%bool then Err (EText "syntax")
          else parse_uint_loop n1 t
  end.

(** nmdc/utils.go:84-114 *)
Definition parse_uint_trim (s0 : bytes) : res N :=
  match s0 with
  | [] => Err (EText "syntax")
  | _ =>
      match trim_space s0 with
      | [] => Err (EText "syntax")
      | s => parse_uint_loop 0 s
      end
  end.
