(** File extension groups of adc/search.go:69-131, strings.ToLower. *)
From Verif Require Import Base Utf8.
Local Open Scope Z_scope.

(** ExtNone .. ExtVideo (adc/search.go:69-77); ExtGroup is an int (adc/search.go:118). *)
Definition ext_none : Z := 0.
(** ExtAudio, adc/search.go:69-77 *)
Definition ext_audio : Z := 1.
(** ExtArch, adc/search.go:69-77 *)
Definition ext_arch : Z := 2.
(** ExtDoc, adc/search.go:69-77 *)
Definition ext_doc : Z := 4.
(** ExtExe, adc/search.go:69-77 *)
Definition ext_exe : Z := 8.
(** ExtImage, adc/search.go:69-77 *)
Definition ext_image : Z := 16.
(** ExtVideo, adc/search.go:69-77 *)
Definition ext_video : Z := 32.

(** extGroups (adc/search.go:79-116), a map with constant keys, as a list of its entries. *)
Definition ext_groups : list (bytes * Z) :=
  [(B "ape", ext_audio); (B "flac", ext_audio); (B "m4a", ext_audio); (B "mid", ext_audio); (B "mp3", ext_audio);
   (B "mpc", ext_audio); (B "ogg", ext_audio); (B "ra", ext_audio); (B "wav", ext_audio); (B "wma", ext_audio);
   (B "7z", ext_arch); (B "ace", ext_arch); (B "arj", ext_arch); (B "bz2", ext_arch); (B "gz", ext_arch); (B "lha", ext_arch);
   (B "lzh", ext_arch); (B "rar", ext_arch); (B "tar", ext_arch); (B "tz", ext_arch); (B "z", ext_arch); (B "zip", ext_arch);
   (B "doc", ext_doc); (B "docx", ext_doc); (B "htm", ext_doc); (B "html", ext_doc); (B "nfo", ext_doc); (B "odf", ext_doc);
   (B "odp", ext_doc); (B "ods", ext_doc); (B "odt", ext_doc); (B "pdf", ext_doc); (B "ppt", ext_doc); (B "pptx", ext_doc);
   (B "rtf", ext_doc); (B "txt", ext_doc); (B "xls", ext_doc); (B "xlsx", ext_doc); (B "xml", ext_doc); (B "xps", ext_doc);
   (B "app", ext_exe); (B "bat", ext_exe); (B "cmd", ext_exe); (B "com", ext_exe); (B "dll", ext_exe); (B "exe", ext_exe);
   (B "jar", ext_exe); (B "msi", ext_exe); (B "ps1", ext_exe); (B "vbs", ext_exe); (B "wsf", ext_exe);
   (B "bmp", ext_image); (B "cdr", ext_image); (B "eps", ext_image); (B "gif", ext_image); (B "ico", ext_image); (B "img", ext_image);
   (B "jpeg", ext_image); (B "jpg", ext_image); (B "png", ext_image); (B "ps", ext_image); (B "psd", ext_image); (B "sfw", ext_image);
   (B "tga", ext_image); (B "tif", ext_image); (B "webp", ext_image);
   (B "3gp", ext_video); (B "asf", ext_video); (B "asx", ext_video); (B "avi", ext_video); (B "divx", ext_video); (B "flv", ext_video);
   (B "mkv", ext_video); (B "mov", ext_video); (B "mp4", ext_video); (B "mpeg", ext_video); (B "mpg", ext_video); (B "ogm", ext_video);
   (B "pxp", ext_video); (B "qt", ext_video); (B "rm", ext_video); (B "rmvb", ext_video); (B "swf", ext_video); (B "vob", ext_video);
   (B "webm", ext_video); (B "wmv", ext_video)].

(** Indexing a map; 0 if there is no such key (adc/search.go:130). *)
Fixpoint group_of (m : list (bytes * Z)) (ext : bytes) : Z :=
  match m with
  | [] => 0
  | (e, g) :: t => if bytes_eqb e ext then g else group_of t ext
  end.

(** unicode.ToLower for ASCII, called by strings.ToLower (adc/search.go:129). *)
Definition lower_ascii (r : N) : N := if ((65 <=? r) && (r <=? 90))%N then (r + 32)%N else r.

(** strings.Map (called by strings.ToLower, adc/search.go:129) for a mapping without negative
    results: every rune, U+FFFD for an invalid byte, is replaced.  Fuel: one round per byte. *)
Fixpoint map_runes (f : N -> N) (fuel : nat) (s : bytes) : bytes :=
  match fuel, s with
  | S n, _ :: _ => let (r, w) := decode_rune s in encode_rune (f r) ++ map_runes f n (skipn w s)
  | _, _ => []
  end.

(** strings.ToLower (adc/search.go:129): byte by byte for ASCII text, otherwise with
    unicode.ToLower, where [ulow] is its behaviour on runes that are not ASCII. *)
Definition to_lower (ulow : N -> N) (s : bytes) : bytes :=
  if forallb (fun b => (b2n b <? 128)%N) s then map (fun b => n2b (lower_ascii (b2n b))) s
  else map_runes (fun r => if (r <? 128)%N then lower_ascii r else ulow r) (length s) s.

(** ExtGroup.Has (adc/search.go:120) *)
Definition ext_has (t st : Z) : bool := negb (Z.land t st =? 0).

(** ExtGroup.Matches (adc/search.go:122-131) *)
Definition ext_matches (ulow : N -> N) (t : Z) (ext : bytes) : bool :=
  if t =? 0 then true else
  let ext := match last_cut "."%byte ext with Some (_, e) => e | None => ext end in
  ext_has t (group_of ext_groups (to_lower ulow ext)).
