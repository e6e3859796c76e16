(** The meaning of file extension groups, for C76: extensions listed by group, and what it means
    for a name to have an extension. *)
From Verif Require Import Base Utf8.

(** The extensions and their numbers. *)
Definition ext_list : list (Z * bytes) :=
  [(1, B "ape flac m4a mid mp3 mpc ogg ra wav wma");
   (2, B "7z ace arj bz2 gz lha lzh rar tar tz z zip");
   (4, B "doc docx htm html nfo odf odp ods odt pdf ppt pptx rtf txt xls xlsx xml xps");
   (8, B "app bat cmd com dll exe jar msi ps1 vbs wsf");
   (16, B "bmp cdr eps gif ico img jpeg jpg png ps psd sfw tga tif webp");
   (32, B "3gp asf asx avi divx flv mkv mov mp4 mpeg mpg ogm pxp qt rm rmvb swf vob webm wmv")]%Z.

(** [g] is the group of the extension [e]: [e] is a word of its list *)
Definition in_group (g : Z) (e : bytes) : Prop :=
  exists l a b, In (g, l) ext_list /\ B " " ++ l ++ B " " = a ++ B " " ++ e ++ B " " ++ b /\ ~ In " "%byte e /\ e <> [].

(** the part after the last dot, the whole name if there is none *)
Definition extension (name ext : bytes) : Prop :=
  ~ In "."%byte ext /\ (name = ext \/ exists a, name = a ++ B "." ++ ext).

(** the lower case of a rune, [ulow] outside of ASCII *)
Definition lower_rune (ulow : N -> N) (r r' : N) : Prop :=
  ((128 <= r /\ r' = ulow r) \/ (65 <= r <= 90 /\ r' = r + 32) \/ (r < 128 /\ ~ (65 <= r <= 90) /\ r' = r))%N.

(** [ext] spells [e] up to case: [ext] is UTF-8 text, its runes in lower case are those of [e] *)
Definition spells (ulow : N -> N) (ext e : bytes) : Prop :=
  exists rs, Forall (fun r => is_scalar r = true) rs /\ ext = flat_map encode_scalar rs /\
    Forall2 (fun r b => lower_rune ulow r (b2n b)) rs e.
