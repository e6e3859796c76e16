(** Specification of calls of the NMDC message reader whose callbacks use Decoder and SetDecoder. *)
From Verif Require Import Base NmdcText NmdcMessage LineReader NmdcReader SpecCalls.

(** The callbacks [c'] do what those of [c] do, and a decoder given for an unknown encoding is also stored. *)
Record stores_given {U} (c c' : ncfg (U * codec)) : Prop := {
  sg_max : nc_max_cmd c' = nc_max_cmd c;
  sg_alive : nc_keep_alive c' = nc_keep_alive c;
  sg_raw : nc_raw c' = nc_raw c;
  sg_error : nc_unmarshal_err c' = nc_unmarshal_err c;
  sg_msg : nc_msg c' = nc_msg c;
  sg_none : nc_unknown c = None <-> nc_unknown c' = None;
  sg_unknown f f' w text u d x : nc_unknown c = Some f -> nc_unknown c' = Some f' -> f w text = ((u, d), x) ->
    f' w text = ((u, match x with inl (Some given) => Some given | _ => d end), x)
}.
(** The answers of calls: each call starts with the decoder stored last. *)
Inductive stored_on {U} (c : ncfg (U * codec)) : U -> codec -> list bytes -> list call -> list answer -> U -> codec -> Prop :=
| so_end u dec ls : stored_on c u dec ls [] [] u dec
| so_empty u dec ls ks os u2 dec2 : stored_on c u dec ls ks os u2 dec2 -> stored_on c u dec ls (CAny [] :: ks) (RAny Panic [] :: os) u2 dec2
| so_call c' u dec ls k v s u1 dec1 ls1 o ks os u2 dec2 : k <> CAny [] -> stores_given c c' ->
    one_call c' (mkAt (u, dec) dec dec (call_target k)) ls v s ls1 -> al_w s = (u1, dec1) -> answers k v (al_target s) o ->
    stored_on c u1 dec1 ls1 ks os u2 dec2 -> stored_on c u dec ls (k :: ks) (o :: os) u2 dec2.

(** The callbacks [c] do what the callbacks [c0] do, and may store decoders, but do not look at them. *)
Record mirrors {U} (c : ncfg (U * codec)) (c0 : ncfg U) : Prop := {
  mi_max : nc_max_cmd c = nc_max_cmd c0;
  mi_alive : match nc_keep_alive c, nc_keep_alive c0 with
    | None, None => True
    | Some f, Some f0 => forall w, f0 (fst w) = (fst (fst (f w)), snd (f w))
    | _, _ => False end;
  mi_raw : Forall2 (fun h h0 => forall w cmd a, h0 (fst w) cmd a = (fst (fst (h w cmd a)), snd (h w cmd a))) (nc_raw c) (nc_raw c0);
  mi_unknown : match nc_unknown c, nc_unknown c0 with
    | None, None => True
    | Some f, Some f0 => forall w t, f0 (fst w) t = (fst (fst (f w t)), snd (f w t))
    | _, _ => False end;
  mi_error : match nc_unmarshal_err c, nc_unmarshal_err c0 with
    | None, None => True
    | Some f, Some f0 => forall w l e, f0 (fst w) l e = (fst (fst (f w l e)), snd (f w l e))
    | _, _ => False end;
  mi_msg : Forall2 (fun h h0 => forall w m, h0 (fst w, m) = ((fst (fst (fst (h (w, m)))), snd (fst (h (w, m)))), snd (h (w, m)))) (nc_msg c) (nc_msg c0)
}.
(** They do not store anything. *)
Record stores_nothing {U} (c : ncfg (U * codec)) : Prop := {
  sn_alive f w : nc_keep_alive c = Some f -> snd (fst (f w)) = snd w;
  sn_raw h w cmd a : In h (nc_raw c) -> snd (fst (h w cmd a)) = snd w;
  sn_unknown f w t : nc_unknown c = Some f -> snd (fst (f w t)) = snd w;
  sn_error f w l e : nc_unmarshal_err c = Some f -> snd (fst (f w l e)) = snd w;
  sn_msg h w m : In h (nc_msg c) -> snd (fst (fst (h (w, m)))) = snd w
}.
