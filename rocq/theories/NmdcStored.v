(** The NMDC message reader with callbacks that call Decoder and SetDecoder of the reader they are
    installed in (nmdc/reader.go:105-114).  The state of the callbacks is a pair: their own state and the
    contents of the field dec.  The line callbacks of the line reader share it.  SetDecoder from another goroutine is
    not modelled. *)
From Verif Require Import Base NmdcText NmdcMessage LineReader NmdcReader SpecCalls.

(** The call of OnUnknownEncoding with the SetDecoder behind it, nmdc/reader.go:294-306: the callback may have
    stored another decoder before. *)
Definition store_unknown {U} (f : U * codec -> bytes -> (U * codec) * (codec + error)) (w : U * codec) (text : bytes) : (U * codec) * (codec + error) :=
  match f w text with
  | ((u, _), inl (Some d)) => ((u, Some d), inl (Some d))
  | x => x
  end.
(** Model only: the callbacks with this, nmdc/reader.go:62-81. *)
Definition storing {U} (c : ncfg (U * codec)) : ncfg (U * codec) :=
  mkNcfg (nc_max_cmd c) (nc_keep_alive c) (nc_raw c) (option_map store_unknown (nc_unknown c)) (nc_unmarshal_err c) (nc_msg c).
(** ReadMsg, ReadMsgTo and ReadMsgToAny: readMsgTo loads the decoder at its start, nmdc/reader.go:148-149; afterwards
    the field has what was stored last. *)
Definition stored_call {U Z} (act : Z -> zaction Z) (fuel : nat) (k : call) (u : U) (R : nreader (U * codec) Z) : option (answer * U * nreader (U * codec) Z) :=
  match do_call act fuel k (u, nr_dec R) (mkNreader (nr_line R) (nr_dec R) (storing (nr_cfg R))) with
  | Some (o, (u', d), R') => Some (o, u', mkNreader (nr_line R') d (nr_cfg R))
  | None => None
  end.
(** Several calls, nmdc/reader.go:117-146. *)
Fixpoint stored_calls {U Z} (act : Z -> zaction Z) (fuel : nat) (ks : list call) (u : U) (R : nreader (U * codec) Z) : option (list answer * U * nreader (U * codec) Z) :=
  match ks with
  | [] => Some ([], u, R)
  | k :: ks => match stored_call act fuel k u R with
               | None => None
               | Some (o, u1, R1) => match stored_calls act fuel ks u1 R1 with None => None | Some (os, u2, R2) => Some (o :: os, u2, R2) end
               end
  end.
