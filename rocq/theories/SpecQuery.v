(** Independent specification of URL queries. *)
From Verif Require Import Base.

(** A digit of base 16 and its value. *)
Definition hex_of (c : byte) (n : N) : Prop :=
  (n < 10 /\ c = n2b (48 + n))%N \/ (10 <= n < 16 /\ (c = n2b (65 + (n - 10)) \/ c = n2b (97 + (n - 10))))%N.
(** Bytes with a meaning in queries. *)
Definition special : list byte := [ "%"; "+"; "&"; ";"; "=" ]%byte.

(** [form s e]: [e] is a way to write the text [s] in a query. *)
Inductive form : bytes -> bytes -> Prop :=
| fo_nil : form [] []
| fo_plain c s e : ~ In c special -> form s e -> form (c :: s) (c :: e)
| fo_space s e : form s e -> form (" "%byte :: s) ("+"%byte :: e)
| fo_hex c a b s e : hex_of a (b2n c / 16) -> hex_of b (b2n c mod 16) -> form s e -> form (c :: s) ("%"%byte :: a :: b :: e).

(** [parameter kv p]: [p] is a way to write a parameter. *)
Inductive parameter : bytes * bytes -> bytes -> Prop :=
| pm_pair k v ek ev : form k ek -> form v ev -> parameter (k, v) (ek ++ B "=" ++ ev)
| pm_key k ek : form k ek -> k <> [] -> parameter (k, []) ek.

(** The value of the first parameter with a name; none: the empty text. *)
Inductive first_of (name : bytes) : list (bytes * bytes) -> bytes -> Prop :=
| fi_none : first_of name [] []
| fi_here v l : first_of name ((name, v) :: l) v
| fi_later k w l v : k <> name -> first_of name l v -> first_of name ((k, w) :: l) v.

(** A parameter with "%" that is not followed by two digits. *)
Definition broken (p : bytes) : Prop :=
  ~ In "&"%byte p /\ ~ In ";"%byte p /\
  exists a t, p = a ++ "%"%byte :: t /\ ~ In "%"%byte a /\ forall x y r n m, t = x :: y :: r -> hex_of x n -> hex_of y m -> False.
