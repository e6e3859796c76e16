(** Specification of relaying ADC packets: decoding a line and encoding the packet again. *)
From Verif Require Import Base AdcValue AdcMessage AdcPacket SpecAdc SpecAdcMessage SpecAdcRead.

(** One line *)
Definition a_line (s : bytes) : Prop := exists q, s = q ++ [x0a] /\ ~ In x0a q.

(** Messages that survive: a status must not have a negative code, and the names of features
    (which are written without escapes) must not need any. *)
Definition survives (m : amsg) : Prop :=
  match m with
  | ASta st => (0 <= st_code st)%Z
  | ASup f => Forall (fun e => ~ In " "%byte (fst e) /\ denotes_text (fst e) (fst e)) f
  | _ => True
  end.

(** Names of features and session identifiers that do not break the line *)
Definition unbroken_line (p : packet) : Prop :=
  Forall (fun id => ~ In x0a id) (sids p) /\
  match message p with ASup f => Forall (fun e => ~ In x0a (fst e)) f | _ => True end.

(** What ParseFloat gives is converted to a 64 bit integer. *)
Definition converts (pf : bytes -> float_result) : Prop := forall s z, pf s = FInt z -> int64 z.
