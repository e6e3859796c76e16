(** Specification of the registration of message types by the calls made so far. *)
From Verif Require Import Base Registry.

Section Spec.
Context {V : Type}.
(** The name a call registers. *)
Definition call_name (c : gotype V * V) : bytes := go_name (fst c) (snd c).
(** [first_call calls n c]: [c] is the first of the calls with the name [n]. *)
Definition first_call (calls : list (gotype V * V)) (n : bytes) (c : gotype V * V) : Prop :=
  exists before after, calls = before ++ c :: after /\ call_name c = n /\ Forall (fun b => call_name b <> n) before.
(** No call has the name. *)
Definition never (calls : list (gotype V * V)) (n : bytes) : Prop := Forall (fun b => call_name b <> n) calls.
(** All values of the type have the same name. *)
Definition same_name (t : gotype V) : Prop := forall v w, go_name t v = go_name t w.
End Spec.
