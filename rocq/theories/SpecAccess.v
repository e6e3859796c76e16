(** Specification of hexadecimal text. *)
From Verif Require Import Base.

(** [hex_text h t]: [t] has two digits for every byte of [h], the higher half first. *)
Inductive hex_text : bytes -> bytes -> Prop :=
| hx_nil : hex_text [] []
| hx_byte b x y h t hi lo : b2n b = (16 * hi + lo)%N -> (lo < 16)%N ->
    nth_error (B "0123456789abcdef") (N.to_nat hi) = Some x -> nth_error (B "0123456789abcdef") (N.to_nat lo) = Some y ->
    hex_text h t -> hex_text (b :: h) (x :: y :: t).
