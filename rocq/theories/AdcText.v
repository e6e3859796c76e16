(** adc/marshal.go: escaping of strings in ADC messages. *)
From Verif Require Import Base.

(** The pairs of escaper, adc/marshal.go:21 *)
Definition escape_byte (c : byte) : bytes :=
  if beq c "\" then B "\\" else if beq c " " then B "\s" else if beq c x0a then B "\n" else [c].

(** escape, adc/marshal.go:21,25-27: every old string has one byte, so the replacer works byte by byte. *)
Definition escape (s : bytes) : bytes := flat_map escape_byte s.

(** unescape, adc/marshal.go:22,29-31: the replacer goes through the text from left to right and
    replaces the pairs; what has been replaced is not looked at again and any other byte
    (an unknown escape, a backslash at the end) is kept. *)
Fixpoint unescape (s : bytes) : bytes :=
  match s with
  | [] => []
  | c :: r =>
      match r with
      | [] => [c]
      | d :: t =>
          if beq c "\" then
            if beq d "s" then " "%byte :: unescape t
            else if beq d "n" then x0a :: unescape t
            else if beq d "\" then "\"%byte :: unescape t
            else c :: unescape r
          else c :: unescape r
      end
  end.
