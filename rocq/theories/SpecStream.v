(** Independent specification of what a whole NMDC stream means, and of the callback for texts in
    an unknown encoding. *)
From Verif Require Import Base Utf8 SpecText SpecHash SpecNmdc SpecRead NmdcText NmdcMessage SpecCommand SpecFrame SpecReader SpecNmdcUnknown.

(** A search for a hash with more than the 39 symbols of a hash: correct in everything else. *)
Inductive search_crash (dec : codec) : bytes -> Prop :=
| src_crash data who r f2 f3 s e rs rs' mx size : first (B " ") data who r ->
    (exists n user, who = B "Hub:" ++ n /\ name_read dec n user) \/ ~ starts_with (B "Hub:") who ->
    r = flag_text rs ++ B "?" ++ flag_text mx ++ B "?" ++ f2 ++ B "?" ++ f3 ++ B "?" ++ B "TTH:" ++ s ++ e -> ~ In "?"%byte f2 -> ~ In "?"%byte f3 ->
    size_read rs f2 rs' size -> uint_read f3 9 ->
    (e = [] /\ ~ ends_in "$" s) \/ e = B "$" -> starts_with_symbols 40 (unbroken s) ->
    search_crash dec data.

(** Decoding the arguments of a command of type [t] reports the text in an unknown encoding (C124). *)
Definition unknown_for (dec : codec) (t a text : bytes) : Prop := exists o, command o = t /\ unknown_in dec o a text.
(** What a line means for a reader with the decoder [dec]: the message its arguments spell, or an
    error if they spell none.  Only an overlong hash in a search makes the reader crash. *)
Inductive line_means (dec : codec) (limit : Z) (l : bytes) : res (option msg) -> Prop :=
| lm_message t a m : line_for limit l t a -> command m = t -> reads dec a m -> line_means dec limit l (Ok (Some m))
| lm_crash a : line_for limit l (B "Search") a -> search_crash dec a -> line_means dec limit l Panic
| lm_error e : (forall t a m, line_for limit l t a -> command m = t -> ~ reads dec a m) ->
    (forall a, line_for limit l (B "Search") a -> ~ search_crash dec a) ->
    (forall text, e = EUnknownEnc text <-> exists t a, line_for limit l t a /\ unknown_for dec t a text) -> line_means dec limit l (Err e).

(** Every byte at which no character starts is replaced by U+FFFD. *)
Inductive repaired : bytes -> bytes -> Prop :=
| rp_end : repaired [] []
| rp_char r s t : scalar r -> repaired s t -> repaired (utf8_of r ++ s) (utf8_of r ++ t)
| rp_bad b s t : (forall r s', scalar r -> b :: s <> utf8_of r ++ s') -> repaired s t -> repaired (b :: s) ([xef; xbf; xbd] ++ t).
(** What the repaired arguments mean.  They are decoded into the message of the first attempt, so
    the fields a line may leave alone are not described here. *)
Inductive repaired_means (t a : bytes) : res (option msg) -> Prop :=
| rm_message m m0 : command m = t -> command m0 = t -> reads None a m0 -> (sets_all m -> m = m0) -> repaired_means t a (Ok (Some m))
| rm_crash : t = B "Search" -> search_crash None a -> repaired_means t a Panic
| rm_error e : (forall m, command m = t -> ~ reads None a m) -> (t = B "Search" -> ~ search_crash None a) ->
    (forall text, e = EUnknownEnc text <-> unknown_for None t a text) -> repaired_means t a (Err e).

(** The meaning of a line for a reader with the callback [f] for unknown encodings: the result, the
    state of the callback and the decoder afterwards. *)
Inductive line_result {W} (f : option (W -> bytes -> W * (codec + error))) (limit : Z) (w : W) (dec : codec) (l : bytes)
  : res (option msg) -> W -> codec -> Prop :=
| ll_plain x : line_means dec limit l x -> (f <> None -> forall t, x <> Err (EUnknownEnc t)) -> line_result f limit w dec l x w dec
| ll_refused g t a text w' e : f = Some g -> line_for limit l t a -> (forall m, command m = t -> ~ reads dec a m) -> unknown_for dec t a text ->
    g w text = (w', inr e) -> line_result f limit w dec l (Err e) w' dec
| ll_decoder g t a text w' d x : f = Some g -> line_for limit l t a -> (forall m, command m = t -> ~ reads dec a m) -> unknown_for dec t a text ->
    g w text = (w', inl (Some d)) -> line_means (Some d) limit l x -> line_result f limit w dec l x w' (Some d)
| ll_repaired g t a text w' a' x : f = Some g -> line_for limit l t a -> (forall m, command m = t -> ~ reads dec a m) -> unknown_for dec t a text ->
    g w text = (w', inl None) -> repaired a a' -> repaired_means t a' x -> line_result f limit w dec l x w' dec.

(** The results of reading the lines one after the other; [k] is what a keep-alive does. *)
Inductive session {W} (f : option (W -> bytes -> W * (codec + error))) (k : W -> W) (limit : Z)
  : W -> codec -> list bytes -> list (res (option msg)) -> W -> codec -> Prop :=
| ss_end w dec : session f k limit w dec [] [] w dec
| ss_keep w dec ls os w2 dec2 : session f k limit (k w) dec ls os w2 dec2 -> session f k limit w dec (B "|" :: ls) os w2 dec2
| ss_line w dec l ls o w1 dec1 os w2 dec2 : l <> B "|" -> line_result f limit w dec l o w1 dec1 -> session f k limit w1 dec1 ls os w2 dec2 ->
    session f k limit w dec (l :: ls) (o :: os) w2 dec2.
