(** Specification of the ADC packet reader with callbacks and messages that use the line reader it embeds. *)
From Verif Require Import Base LineReader LineReentry SpecLine SpecSession SpecReentry AdcMessage AdcPacket SpecAdcReader AdcReader SpecAdcStream Registry AdcForeign SpecAdcForeign AdcReentry.

Section Spec.
Context {W V Z : Type} (act : Z -> zaction Z) (zinit : Z).
(** The line reader, *)
Notation lr := (@lreader (fenv W V) Z).
(** the state of a program and of the reader, *)
Notation env := (fenv (W * lr) V).
(** and that of a program alone. *)
Notation small := (fenv W V).

(** A line reader whose unused list of callbacks is empty. *)
Definition same_reader (L : lr) : lr :=
  match L with mkLreader hs (mkReader d mx op c o zo zc z k _) => mkLreader hs (mkReader d mx op c o zo zc z k []) end.
(** ReadLine on the line reader of the state (C143). *)
Definition takes (s : env) (o : line_out) (s' : env) : Prop :=
  re_reads act zinit (fst (fst s), snd s) (same_reader (snd (fst s))) o (fst (fst s'), snd s') (snd (fst s')).
(** The next line that is no keep-alive, read by the line reader as it is then. *)
Inductive expects (keep : option (env -> env * option error)) : env -> unit -> res bytes -> env -> unit -> Prop :=
| ex_error s o e s1 : takes s (LErr o e) s1 -> expects keep s tt (Err e) s1 tt
| ex_panic s s1 : takes s LPanic s1 -> expects keep s tt Panic s1 tt
| ex_open s l e s1 : takes s (LLine l) s1 -> (forall b, l <> b ++ [x0a]) -> expects keep s tt (Err e) s1 tt
| ex_line s b s1 : takes s (LLine (b ++ [x0a])) s1 -> b <> [] -> expects keep s tt (Ok (b ++ [x0a])) s1 tt
| ex_alive s s1 s2 o s3 : takes s (LLine [x0a]) s1 -> on_keep keep s1 = (s2, None) -> expects keep s2 tt o s3 tt -> expects keep s tt o s3 tt
| ex_stop s s1 s2 e : takes s (LLine [x0a]) s1 -> on_keep keep s1 = (s2, Some e) -> expects keep s tt (Err e) s2 tt.

(** ** Callbacks and messages that do not use the line reader *)
(** The state of the reader with the state of the program. *)
Definition beside (L : lr) (s : small) : env := ((fst s, L), snd s).
(** OnKeepAlive *)
Definition lift_keep (keep : option (small -> small * option error)) : option (env -> env * option error) :=
  match keep with None => None | Some k => Some (fun s => let '(s1, e) := k (fst (fst s), snd s) in (beside (snd (fst s)) s1, e)) end.
(** and Unmarshal. *)
Definition lift_decode (decode : gotype V -> bytes -> V -> small -> small * res V) : gotype V -> bytes -> V -> env -> env * res V :=
  fun t d v s => let '(s1, x) := decode t d v (fst (fst s), snd s) in (beside (snd (fst s)) s1, x).

(** What a call gets from lines and errors of the line reader; io.EOF at the end. *)
Inductive gets_out (keep : option (small -> small * option error)) : small -> list line_out -> res bytes -> small -> list line_out -> Prop :=
| go_end s : gets_out keep s [] (Err EEOF) s []
| go_error s o e os : gets_out keep s (LErr o e :: os) (Err e) s os
| go_line s l os : l <> [x0a] -> gets_out keep s (LLine l :: os) (Ok l) s os
| go_alive s os s1 o s2 os2 : on_keep keep s = (s1, None) -> gets_out keep s1 os o s2 os2 -> gets_out keep s (LLine [x0a] :: os) o s2 os2
| go_stop s os s1 e : on_keep keep s = (s1, Some e) -> gets_out keep s (LLine [x0a] :: os) (Err e) s1 os.
End Spec.
