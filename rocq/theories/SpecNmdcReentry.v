(** Specification of the NMDC message reader with callbacks that use the line reader it embeds. *)
From Verif Require Import Base SpecText NmdcText NmdcMessage LineReader LineReentry SpecLine SpecSession SpecReentry NmdcReader SpecReader SpecStream SpecCalls.
From Verif Require Import NmdcProgram NmdcForeign SpecForeign NmdcReentry.

Section Spec.
Context {W A Z : Type} (act : Z -> zaction Z) (zinit : Z).
(** The line reader. *)
Notation lr := (@lreader (env W) Z).
Variable M : rmethods (W * lr) A.

(** ReadLine on the line reader of the state (C143). *)
Definition takes_line (s : env (W * lr)) (o : line_out) (s' : env (W * lr)) : Prop :=
  re_reads act zinit (fst (fst s), snd s) (lr_tidy (snd (fst s))) o (fst (fst s'), snd s') (snd (fst s')).
(** A call: lines are read by the line reader as it is then, and do what one line does to a call (C137). *)
Inductive n_lines (c : fcfg (W * lr) A) : env (W * lr) -> codec -> goal A -> list bytes -> verdict -> env (W * lr) -> goal A -> Prop :=
| nl_error s dec g o e s1 : takes_line s (LErr o e) s1 -> n_lines c s dec g [] (VErr e) s1 g
| nl_panic s dec g s1 : takes_line s LPanic s1 -> n_lines c s dec g [] VCrash s1 g
| nl_next s dec g l s1 s2 dec2 g2 ls v s3 g3 : takes_line s (LLine l) s1 -> line M c s1 dec g l VNext s2 dec2 g2 ->
    n_lines c s2 dec2 g2 ls v s3 g3 -> n_lines c s dec g (l :: ls) v s3 g3
| nl_last s dec g l s1 v s2 dec2 g2 : takes_line s (LLine l) s1 -> line M c s1 dec g l v s2 dec2 g2 -> v <> VNext ->
    n_lines c s dec g [l] v s2 g2.
(** The calls of a program, with the lines each of them has read. *)
Inductive n_reading (c : fcfg (W * lr) A) : env (W * lr) -> list (fcall A * list bytes * fanswer A) -> env (W * lr) -> Prop :=
| ng_nil s : n_reading c s [] s
| ng_empty s h s' : n_reading c s h s' -> n_reading c s ((FAny [], [], FRAny Panic []) :: h) s'
| ng_set w dec dec' h s' : n_reading c (w, dec') h s' -> n_reading c (w, dec) ((FSetDec dec', [], FRSet) :: h) s'
| ng_call s k ls v s1 g o h s' : k <> FAny [] -> (forall d, k <> FSetDec d) -> n_lines c s (snd s) (call_goal k) ls v s1 g -> replies k v g o ->
    n_reading c s1 h s' -> n_reading c s ((k, ls, o) :: h) s'.

(** ** Callbacks and messages that do not use the line reader *)
(** The state of a program alone, *)
Definition below (s : env (W * lr)) : env W := (fst (fst s), snd s).
(** with the state of the reader, *)
Definition above (L : lr) (s : env W) : env (W * lr) := ((fst s, L), snd s).
(** what is done to the former, *)
Definition around {X} (s : env (W * lr)) (p : env W * X) : env (W * lr) * X := (above (snd (fst s)) (fst p), snd p).
(** messages *)
Definition lift_methods (N : rmethods W A) : rmethods (W * lr) A :=
  mkRmethods (r_type N) (r_kind N)
    (fun a dec s d => match r_unmarshal N a dec (below s) d with (s1, a1, r) => (above (snd (fst s)) s1, a1, r) end) (r_new N) (r_chat N).
(** and callbacks. *)
Definition lift_cfg (c : fcfg W A) : fcfg (W * lr) A :=
  mkFcfg (fc_max_cmd c) (option_map (fun f s => around s (f (below s))) (fc_keep_alive c))
    (map (fun h s cmd args => around s (h (below s) cmd args)) (fc_raw c))
    (option_map (fun f s t => around s (f (below s) t)) (fc_unknown c))
    (option_map (fun f s l e => around s (f (below s) l e)) (fc_unmarshal_err c))
    (map (fun h p => match h (below (fst p), snd p) with (s1, a, v) => (above (snd (fst (fst p))) s1, a, v) end) (fc_msg c)).

(** ** A program that switches on compression when the hub says so *)
(** A callback for raw messages that calls EnableZlib at $ZOn and does not report it; [fuel]: steps for the call. *)
Definition zon_raw (fuel : nat) (s : env (W * lr)) (cmd : option bytes) (args : bytes) : env (W * lr) * hook_res :=
  let '((w, L), dec) := s in
  match cmd with
  | Some t =>
      if bytes_eqb t (B "ZOn") then
        match enable_zlib act zinit fuel (lr_rest L) with
        | Some (ROk _, r) => (((w, mkLreader (lr_hooks L) r), dec), HDrop)
        | Some (RErr e, r) => (((w, mkLreader (lr_hooks L) r), dec), HErr e)
        | _ => (s, HErr (EText "no zlib"))
        end
      else (s, HPass)
  | None => (s, HPass)
  end.
(** A $ZOn message. *)
Definition zon_line (l : bytes) : Prop := exists body d, l = body ++ B "|" /\ ~ In x00 body /\ parsed body (Some (B "ZOn")) d.
(** The lines of a stream with $ZOn messages, each followed by a compressed section; inside of a section $ZOn is an error. *)
Inductive tells (max : BinInt.Z) : stream -> list line_out -> Prop :=
| te_end t : ~ In "|"%byte (contents t) -> within max (S (length (contents t))) -> tells max t []
| te_line t l u os : contents t = l ++ u -> is_line "|"%byte l -> within max (length l) -> ~ zon_line l ->
    tells max (after (length l) t) os -> tells max t (LLine l :: os)
| te_zon t l u z x more os : contents t = l ++ u -> is_line "|"%byte l -> within max (length l) -> zon_line l ->
    after (length l) t = Plain (z ++ more) -> inflates act zinit z x -> tells max (Zip x more) os -> tells max t os
| te_twice t l u x more os : contents t = l ++ u -> is_line "|"%byte l -> within max (length l) -> zon_line l ->
    after (length l) t = Zip x more -> x <> [] -> tells max (Zip x more) os -> tells max t (LErr None err_zlib_active :: os).
(** No callbacks. *)
Definition silent_cfg (limit : BinInt.Z) : fcfg (W * lr) A := mkFcfg limit None [] None None [].
(** Messages whose UnmarshalNMDC does nothing but decoding. *)
Definition stateless : Prop := forall a dec d, exists a' r, forall s, r_unmarshal M a dec s d = (s, a', r).
(** What ReadMsg, called [n] times, gives for lines and errors, if each line is handled as without callbacks; io.EOF at the end. *)
Inductive heard (limit : BinInt.Z) (dec : codec) : nat -> list line_out -> list (fanswer A) -> Prop :=
| he_done os : heard limit dec 0 os []
| he_end n rs : heard limit dec n [] rs -> heard limit dec (S n) [] (FRNew (Err EEOF) :: rs)
| he_error n e os rs : heard limit dec n os rs -> heard limit dec (S n) (LErr None e :: os) (FRNew (Err e) :: rs)
| he_skip n l os rs s : line M (silent_cfg limit) s dec (GOne None) l VNext s dec (GOne None) -> heard limit dec (S n) os rs ->
    heard limit dec (S n) (LLine l :: os) rs
| he_line n l os v g o rs s : line M (silent_cfg limit) s dec (GOne None) l v s dec g -> v <> VNext -> replies FNew v g o ->
    heard limit dec n os rs -> heard limit dec (S n) (LLine l :: os) (o :: rs).
End Spec.
