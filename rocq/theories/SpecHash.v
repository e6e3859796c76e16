(** Independent specifications for base32 texts, tree hashes and key prints. *)
From Verif Require Import Base.

(** ** Bits and base32 (RFC 4648) *)

(** Bits of a byte and of a 5-bit value, most significant first. *)
Definition bits8 (b : byte) : list bool := map (N.testbit (b2n b)) [7; 6; 5; 4; 3; 2; 1; 0]%N.
(** The bits of a symbol, highest first. *)
Definition bits5 (v : N) : list bool := map (N.testbit v) [4; 3; 2; 1; 0]%N.

(** The symbol of a value. *)
Inductive symbol : byte -> N -> Prop :=
| sy_letter v : (v < 26)%N -> symbol (n2b (65 + v)) v          (* A-Z: 0-25 *)
| sy_digit v : (26 <= v < 32)%N -> symbol (n2b (24 + v)) v.    (* 2-7: 26-31 *)

(** The text [t] spells the bit string [bs]. *)
Definition spells (t : bytes) (bs : list bool) : Prop :=
  exists vs, Forall2 symbol t vs /\ bs = flat_map bits5 vs.

(** The first [n] characters are symbols. *)
Definition starts_with_symbols (n : nat) (s : bytes) : Prop := exists t rest vs, s = t ++ rest /\ length t = n /\ Forall2 symbol t vs.
(** Without line breaks. *)
Definition unbroken (s : bytes) : bytes := filter (fun c => negb (beq c x0a || beq c x0d)) s.

(** ** Tree hash (THEX) *)

(** Cutting a file into blocks of 1024 bytes; the empty file has one empty block. *)
Inductive blocks : bytes -> list bytes -> Prop :=
| bl_last d : length d <= 1024 -> blocks d [d]
| bl_more d s bs : length d = 1024 -> s <> [] -> blocks s bs -> blocks (d ++ s) (d :: bs).

Section Thex.
Variable H : bytes -> bytes.
(** The root of the tree over a non-empty list of leaf hashes: the left subtree is the
    largest complete one. *)
Inductive merkle : list bytes -> bytes -> Prop :=
| mk_leaf h : merkle [h] h
| mk_node k l r hl hr : length l = 2 ^ k -> 0 < length r <= 2 ^ k -> merkle l hl -> merkle r hr ->
    merkle (l ++ r) (H (x01 :: hl ++ hr)).
(** The Merkle root of a content. *)
Definition thex (content root : bytes) : Prop :=
  exists bs, blocks content bs /\ merkle (map (fun b => H (x00 :: b)) bs) root.
End Thex.

(** All bytes delivered by a reader. *)
Definition delivered_by (rs : list (bytes * option error)) : bytes := concat (map fst rs).

(** A reader that fills the buffer of 1024 bytes as long as data is available, and
    reports io.EOF with or after the last data. *)
Inductive filling : list (bytes * option error) -> Prop :=
| fl_end : filling []
| fl_short d e : 0 < length d <= 1024 -> e = None \/ e = Some EEOF -> filling [(d, e)]
| fl_eof d : length d <= 1024 -> filling [(d, Some EEOF)]
| fl_full d rs : length d = 1024 -> filling rs -> filling ((d, None) :: rs).

(** ** PEM *)
Inductive pem_blocks (pem : bytes -> option (bytes * bytes * bytes)) : bytes -> list (bytes * bytes) -> Prop :=
| pb_end data : pem data = None -> pem_blocks pem data []
| pb_more data typ b rest l : pem data = Some (typ, b, rest) -> pem_blocks pem rest l ->
    pem_blocks pem data ((typ, b) :: l).
(** The certificates among the blocks of a PEM file. *)
Definition certificates (l : list (bytes * bytes)) : list bytes :=
  map snd (filter (fun tb => if bytes_eqb (fst tb) (B "CERTIFICATE") then true else false) l).
