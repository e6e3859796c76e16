(** Specification of message and packet calls on a reader with line callbacks, across compressed sections and
    binary transfers. *)
From Verif Require Import Base LineReader SpecLine SpecSession NmdcText NmdcMessage NmdcReader SpecCalls.
From Verif Require Import AdcValue AdcMessage AdcPacket SpecAdc AdcReader SpecAdcReader SpecAdcStream.

(** What comes next: a line, the error of a line callback, each with the lines behind it, or the end. *)
Inductive got := GLine (l : bytes) (ls : list bytes) | GErr (e : error) (ls : list bytes) | GEnd.
(** The line callbacks choose the next line. *)
Inductive gets {W} (hs : list (hook W)) : W -> list bytes -> W -> got -> Prop :=
| ge_end w : gets hs w [] w GEnd
| ge_line w l ls w1 : SpecLine.verdict hs w l w1 HPass -> gets hs w (l :: ls) w1 (GLine l ls)
| ge_error w l ls w1 e : SpecLine.verdict hs w l w1 (HErr e) -> gets hs w (l :: ls) w1 (GErr e ls)
| ge_drop w l ls w1 w2 g : SpecLine.verdict hs w l w1 HDrop -> gets hs w1 ls w2 g -> gets hs w (l :: ls) w2 g.

(** The state for the next line of a call of the NMDC reader. *)
Definition now {W} (s : at_line W) (w : W) : at_line W := mkAt w (al_now s) (al_kept s) (al_target s).
(** A call of the NMDC reader: lines until one ends it; None: the end of the stream was reached. *)
Inductive nmdc_call {W} (hs : list (hook W)) (c : ncfg W) : at_line W -> list bytes -> verdict -> at_line W -> option (list bytes) -> Prop :=
| nc_end s ls w : gets hs (al_w s) ls w GEnd -> nmdc_call hs c s ls (VErr EEOF) (now s w) None
| nc_error s ls w e ls1 : gets hs (al_w s) ls w (GErr e ls1) -> nmdc_call hs c s ls (VErr e) (now s w) (Some ls1)
| nc_next s ls w l ls1 s1 v s2 left : gets hs (al_w s) ls w (GLine l ls1) -> handles c (now s w) l VNext s1 ->
    nmdc_call hs c s1 ls1 v s2 left -> nmdc_call hs c s ls v s2 left
| nc_done s ls w l ls1 v s1 : gets hs (al_w s) ls w (GLine l ls1) -> handles c (now s w) l v s1 -> v <> VNext ->
    nmdc_call hs c s ls v s1 (Some ls1).

(** A call of the ADC reader. *)
Inductive adc_call {W} (hs : list (hook W)) (pf : bytes -> float_result) (keep : option (W -> W * option error)) (c : rcall)
  : W -> list bytes -> SpecAdcReader.answer -> W -> option (list bytes) -> Prop :=
| ac_end w ls w1 : gets hs w ls w1 GEnd -> adc_call hs pf keep c w ls (failed c EEOF) w1 None
| ac_error w ls w1 e ls1 : gets hs w ls w1 (GErr e ls1) -> adc_call hs pf keep c w ls (failed c e) w1 (Some ls1)
| ac_keep w ls w1 ls1 w2 a w3 left : gets hs w ls w1 (GLine [x0a] ls1) -> on_keep keep w1 = (w2, None) ->
    adc_call hs pf keep c w2 ls1 a w3 left -> adc_call hs pf keep c w ls a w3 left
| ac_keep_error w ls w1 ls1 w2 e : gets hs w ls w1 (GLine [x0a] ls1) -> on_keep keep w1 = (w2, Some e) ->
    adc_call hs pf keep c w ls (failed c e) w2 (Some ls1)
| ac_line w ls w1 l ls1 a : gets hs w ls w1 (GLine l ls1) -> l <> [x0a] -> call_means pf c l a ->
    adc_call hs pf keep c w ls a w1 (Some ls1).

(** The stream consists of lines of legal length and a rest that is no complete line. *)
Definition lines_ahead {W Z} (r : reader W Z) (t : stream) (ls : list bytes) (rest : bytes) : Prop :=
  SpecSession.contents t = concat ls ++ rest /\ Forall (is_line (rd_delim r)) ls /\ ~ In (rd_delim r) rest /\
  Forall (fun l => within (rd_max r) (length l)) ls /\ within (rd_max r) (S (length rest)).
(** The reader goes on behind the lines that were used. *)
Definition goes_on {W Z} (act : Z -> zaction Z) (zinit : Z) (r : reader W Z) (t : stream) (ls : list bytes) (left : option (list bytes)) : Prop :=
  match left with
  | None => serves act zinit r (Plain [])
  | Some ls' => exists used, ls = used ++ ls' /\ serves act zinit r (after (length (concat used)) t)
  end.
