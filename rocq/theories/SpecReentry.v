(** Specification of line callbacks that call the reader they belong to: a call in a callback has the effect it
    has between two calls of ReadLine. *)
From Verif Require Import Base LineReader LineReentry SpecLine SpecSession.

Section Reentry.
Context {W Z : Type} (act : Z -> zaction Z) (zinit : Z).
(** The callbacks and the rest of a reader. *)
Notation lr := (@lreader W Z).

(** A callback, told by the methods of the reader it calls; no verdict: it panicked. *)
Inductive does : hprog W -> lr -> W -> option hook_res -> lr -> Prop :=
| do_return w v s : does (PReturn w v) s w (Some v) s
| do_panic w s : does (PPanic w) s w None s
| do_zlib k hs r f o r' w v s' : enable_zlib act zinit f r = Some (o, r') -> does (k o) (mkLreader hs r') w v s' ->
    does (PZlib k) (mkLreader hs r) w v s'
| do_read n k hs r f o r' w v s' : reader_read act f n r = Some (o, r') -> does (k o) (mkLreader hs r') w v s' ->
    does (PRead n k) (mkLreader hs r) w v s'
| do_max z p hs r w v s' : does p (mkLreader hs (set_max_line z r)) w v s' -> does (PMax z p) (mkLreader hs r) w v s'
| do_hook h p hs r w v s' : does p (mkLreader (hs ++ [h]) r) w v s' -> does (PHook h p) (mkLreader hs r) w v s'
| do_close p hs r w v s' : does p (mkLreader [] (close_reader r)) w v s' -> does (PClose p) (mkLreader hs r) w v s'.

(** The callbacks are asked in order until one does not pass the line. *)
Inductive asked : list (W -> bytes -> hprog W) -> W -> bytes -> lr -> W -> option hook_res -> lr -> Prop :=
| as_none w l s : asked [] w l s w (Some HPass) s
| as_pass h hs w l s w1 s1 w2 v s2 : does (h w l) s w1 (Some HPass) s1 -> asked hs w1 l s1 w2 v s2 -> asked (h :: hs) w l s w2 v s2
| as_stop h hs w l s w1 v s1 : does (h w l) s w1 v s1 -> v <> Some HPass -> asked (h :: hs) w l s w1 v s1.

(** ReadLine: the line a reader without callbacks returns is shown to the callbacks the reader had at that time, which
    do to the reader what they do; a dropped line is followed by another such line, unless the reader was closed. *)
Inductive re_reads : W -> lr -> line_out -> W -> lr -> Prop :=
| re_none w hs r f o r' : read_line act f tt r = Some (o, tt, r') -> (forall l, o <> LLine l) ->
    re_reads w (mkLreader hs r) o w (mkLreader hs r')
| re_pass w hs r f l r' w' s' : read_line act f tt r = Some (LLine l, tt, r') -> asked hs w l (mkLreader hs r') w' (Some HPass) s' ->
    re_reads w (mkLreader hs r) (LLine l) w' s'
| re_error w hs r f l r' w' e s' : read_line act f tt r = Some (LLine l, tt, r') -> asked hs w l (mkLreader hs r') w' (Some (HErr e)) s' ->
    re_reads w (mkLreader hs r) (LErr None e) w' s'
| re_panic w hs r f l r' w' s' : read_line act f tt r = Some (LLine l, tt, r') -> asked hs w l (mkLreader hs r') w' None s' ->
    re_reads w (mkLreader hs r) LPanic w' s'
| re_drop w hs r f l r' w' s' o w2 s2 : read_line act f tt r = Some (LLine l, tt, r') -> asked hs w l (mkLreader hs r') w' (Some HDrop) s' ->
    rd_open (lr_rest s') = true -> re_reads w' s' o w2 s2 -> re_reads w (mkLreader hs r) o w2 s2
| re_drop_closed w hs r f l r' w' s' : read_line act f tt r = Some (LLine l, tt, r') -> asked hs w l (mkLreader hs r') w' (Some HDrop) s' ->
    rd_open (lr_rest s') = false -> re_reads w (mkLreader hs r) LPanic w' s'.

(** Lines are dropped, and the call goes on with the state and the reader the callbacks have left. *)
Inductive drops_to : W -> lr -> W -> lr -> Prop :=
| dr_here w s : drops_to w s w s
| dr_next w hs r f l r' w' s' w2 s2 : read_line act f tt r = Some (LLine l, tt, r') -> asked hs w l (mkLreader hs r') w' (Some HDrop) s' ->
    rd_open (lr_rest s') = true -> drops_to w' s' w2 s2 -> drops_to w (mkLreader hs r) w2 s2.

(** A callback that does not call the reader. *)
Definition plain_hook (h : hook W) : W -> bytes -> hprog W := fun w l => let '(w', v) := h w l in PReturn w' v.

(** The fields of a reader other than its callbacks. *)
Definition rest_of (r : reader W Z) : reader unit Z :=
  mkReader (rd_delim r) (rd_max r) (rd_open r) (rd_conn r) (rd_orig r) (rd_zlib_on r) (rd_zcur r) (rd_z r) (rd_comp r) [].
(** The reader of the package that has the callbacks [rd_hooks r]. *)
Definition of_reader (r : reader W Z) : lr := mkLreader (map plain_hook (rd_hooks r)) (rest_of r).

(** The callback which a program installs for compression: the line [zon] switches it on and is not reported. *)
Definition zon_hook (zon : bytes) : W -> bytes -> hprog W := fun w l =>
  if bytes_eqb l zon
  then PZlib (fun o => match o with ROk _ => PReturn w HDrop | RErr e => PReturn w (HErr e) | RPanic => PPanic w end)
  else PReturn w HPass.

(** What is to be read from a stream with lines that switch on compression, and the incomplete line at its end.  Behind
    such a line there is a compressed section, which may end inside of a line; inside of a section the line is an error. *)
Inductive carries (delim : byte) (max : BinInt.Z) (zon : bytes) : stream -> list line_out -> bytes -> Prop :=
| ca_end t : ~ In delim (contents t) -> within max (S (length (contents t))) -> carries delim max zon t [] (contents t)
| ca_line t l u os rest : contents t = l ++ u -> is_line delim l -> within max (length l) -> l <> zon ->
    carries delim max zon (after (length l) t) os rest -> carries delim max zon t (LLine l :: os) rest
| ca_zon t u z x more os rest : contents t = zon ++ u -> is_line delim zon -> within max (length zon) ->
    after (length zon) t = Plain (z ++ more) -> inflates act zinit z x ->
    carries delim max zon (Zip x more) os rest -> carries delim max zon t os rest
| ca_twice t u x more os rest : contents t = zon ++ u -> is_line delim zon -> within max (length zon) ->
    after (length zon) t = Zip x more -> x <> [] ->
    carries delim max zon (Zip x more) os rest -> carries delim max zon t (LErr None err_zlib_active :: os) rest.
End Reentry.
