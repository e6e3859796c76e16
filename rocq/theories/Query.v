(** keyprint/keyprint.go: FromURL with the query parsing of net/url; adc/types/types.go: NewPID.

    Simplifications:
    - the query is the field RawQuery of the URL, which url.Parse takes from the address as
      it is (the text after the first "?", up to a "#");
    - net/url changed with Go 1.17: before that ";" separates parameters as "&" does, since
      then a parameter with ";" is dropped.  [semi] says which; go.mod asks for Go 1.12 or later;
    - the random source of NewPID is its answer: the bytes that it has written and its error. *)
From Verif Require Import Base.

(** unhex, ishex of net/url (called in keyprint/keyprint.go:65) *)
Definition hex_value (c : byte) : option N :=
  let n := b2n c in
  if ((48 <=? n) && (n <=? 57))%N%bool then Some (n - 48)%N
  else if ((97 <=? n) && (n <=? 102))%N%bool then Some (n - 87)%N
  else if ((65 <=? n) && (n <=? 70))%N%bool then Some (n - 55)%N
  else None.
(** url.QueryUnescape (called in keyprint/keyprint.go:65); None: an error *)
Fixpoint query_unescape (s : bytes) : option bytes :=
  match s with
  | [] => Some []
  | c :: t =>
      if beq c "%" then
        match t with
        | a :: b :: r =>
            match hex_value a, hex_value b with
            | Some x, Some y => option_map (cons (n2b (16 * x + y))) (query_unescape r)
            | _, _ => None
            end
        | _ => None
        end
      else option_map (cons (if beq c "+" then " "%byte else c)) (query_unescape t)
  end.
(** One parameter in parseQuery of net/url (called in keyprint/keyprint.go:65); None: dropped *)
Definition query_pair (part : bytes) : option (bytes * bytes) :=
  match part with
  | [] => None
  | _ =>
      let kv := match cut "=" part with Some x => x | None => (part, []) end in
      match query_unescape (fst kv), query_unescape (snd kv) with
      | Some k, Some v => Some (k, v)
      | _, _ => None
      end
  end.
(** The parameters of a query: the text between separators, keyprint/keyprint.go:65 *)
Definition query_parts (semi : bool) (q : bytes) : list bytes :=
  if semi then split_byte "&" (map (fun c => if beq c ";" then "&"%byte else c) q)
  else filter (fun p => negb (contains_byte ";" p)) (split_byte "&" q).
(** url.URL.Query, keyprint/keyprint.go:65: the map as a list of pairs in order *)
Definition query (semi : bool) (q : bytes) : list (bytes * bytes) :=
  flat_map (fun p => match query_pair p with Some kv => [kv] | None => [] end) (query_parts semi q).
(** url.Values.Get, keyprint/keyprint.go:65 *)
Definition query_get (k : bytes) (l : list (bytes * bytes)) : bytes :=
  match find (fun kv => bytes_eqb (fst kv) k) l with Some kv => snd kv | None => [] end.
(** FromURL, keyprint/keyprint.go:64-66 *)
Definition keyprint_from_url (semi : bool) (q : bytes) : bytes := query_get (B "kp") (query semi q).

(** NewPID, adc/types/types.go:149-152: the random source has written [data] to the beginning
    of the array and returned [e]. *)
Definition new_pid (data : bytes) (e : option error) : bytes * option error :=
  (firstn 24 data ++ skipn (length data) (repeat x00 24), e).
