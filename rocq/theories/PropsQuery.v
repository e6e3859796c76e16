(** Property theorems C131 and C132: the keyprint of an address, new private IDs.
    Specification: SpecQuery.v.  Proofs: QueryFacts.v.  [semi] is the version of net/url,
    [sha256] an arbitrary function with results of 32 bytes. *)
From Verif Require Import Base BaseFacts Base32 Tiger SpecHash TigerFacts Query SpecQuery QueryFacts.

(** ** C131: the keyprint of an address. *)

(** FromURL returns the value of the first parameter "kp", however the query is written. *)
Theorem C131_lookup semi ps l v : Forall2 parameter ps l -> first_of (B "kp") ps v -> keyprint_from_url semi (join (B "&") l) = v.
Proof. exact (query_lookup semi ps l v). Qed.
Print Assumptions C131_lookup.

(** Malformed parameters are passed over. *)
Theorem C131_broken semi a p b : Forall (fun q => ~ In "&"%byte q /\ ~ In ";"%byte q) (a ++ b) -> broken p ->
  keyprint_from_url semi (join (B "&") (a ++ p :: b)) = keyprint_from_url semi (join (B "&") (a ++ b)).
Proof. exact (query_broken semi a p b). Qed.
Print Assumptions C131_broken.

Lemma plain_form s : (forall c, In c s -> ~ In c special) -> form s s.
Proof. induction s as [|c s IH]; intros H; constructor; [apply H; now left|]. apply IH. intros x Hx. apply H. now right. Qed.
Lemma symbol_plain c v : symbol c v -> ~ In c special.
Proof.
  intros H K. assert (N2 : forall n, (n < 256)%N -> b2n (n2b n) = n) by (intros n Hn; apply b2n_n2b; exact Hn).
  assert (B2 : In (b2n c) (map b2n special)) by (now apply in_map). cbn in B2.
  destruct H as [v Hv|v Hv]; rewrite N2 in B2 by lia; lia.
Qed.
(** The keyprint of a certificate can be put into an address as it is, and a connection with
    that certificate is accepted for it. *)
Theorem C131_keyprint sha256 semi cert certs ps pre qs post : length (sha256 cert) = 32 -> In cert certs ->
  Forall2 parameter ps pre -> Forall (fun kv => fst kv <> B "kp") ps -> Forall2 parameter qs post ->
  let kp := keyprint_from_url semi (join (B "&") (pre ++ (B "kp=" ++ keyprint_bytes sha256 cert) :: post)) in
  kp = keyprint_bytes sha256 cert /\ snd (verify_keyprint sha256 certs kp) = true.
Proof.
  intros Hl Hc Hp Hn Hq. cbv zeta.
  assert (E : keyprint_from_url semi (join (B "&") (pre ++ (B "kp=" ++ keyprint_bytes sha256 cert) :: post)) = keyprint_bytes sha256 cert).
  { apply query_lookup with (ps := ps ++ (B "kp", keyprint_bytes sha256 cert) :: qs).
    - apply Forall2_app; [exact Hp|]. constructor; [|exact Hq]. apply (pm_pair (B "kp") _ (B "kp")).
      + apply plain_form. cbn. intros c [<-|[<-|[]]] K; cbn in K; intuition discriminate.
      + apply plain_form. destruct (keyprint_form sha256 cert Hl) as (t & vs & -> & _ & Hs). intros c Hin. apply in_app_iff in Hin. destruct Hin as [Hin|Hin].
        * cbn in Hin. repeat (destruct Hin as [<-|Hin]; [cbn; intuition discriminate|]). contradiction.
        * assert (X : exists v, symbol c v). { clear - Hs Hin. induction Hs as [|x v t vs H _ IH]; [contradiction|]. destruct Hin as [<-|Hin]; [eauto|auto]. }
          destruct X as [v Hv]. exact (symbol_plain _ _ Hv).
    - clear - Hn. induction Hn as [|[k w] ps Hk _ IH]; cbn [app]; constructor; auto. }
  split; [exact E|]. rewrite E. unfold verify_keyprint, get_keyprints. cbn [snd]. apply existsb_exists. exists (keyprint_bytes sha256 cert).
  split; [now apply in_map|apply bytes_eqb_refl].
Qed.
Print Assumptions C131_keyprint.

(** The versions of net/url differ for ";". *)
Theorem C131_semicolon : keyprint_from_url true (B "a=1;kp=x") = B "x" /\ keyprint_from_url false (B "a=1;kp=x") = B "" /\
  keyprint_from_url true (B "kp=x;y&kp=z") = B "x" /\ keyprint_from_url false (B "kp=x;y&kp=z") = B "z".
Proof. vm_compute. repeat split; reflexivity. Qed.
Print Assumptions C131_semicolon.

Example C131_case : let l := [B "a%3D"; B "k%70=SHA256%2fX+%3b"; B "kp=no"] in
  Forall2 parameter [(B "a=", B ""); (B "kp", B "SHA256/X ;"); (B "kp", B "no")] l /\
  first_of (B "kp") [(B "a=", B ""); (B "kp", B "SHA256/X ;"); (B "kp", B "no")] (B "SHA256/X ;") /\
  keyprint_from_url false (join (B "&") l) = B "SHA256/X ;".
Proof.
  cbv zeta.
  assert (P : forall c s e, ~ In c special -> form s e -> form (c :: s) (c :: e)) by (exact fo_plain).
  assert (NP : forall c, existsb (fun x => beq x c) special = false -> ~ In c special).
  { intros c H K. assert (T : existsb (fun x => beq x c) special = true) by (apply existsb_exists; exists c; split; [exact K|destruct (beq_spec c c); congruence]). congruence. }
  assert (HX : forall c n, hex_value c = Some n -> hex_of c n) by (exact of_hex_value).
  split; [|split].
  - constructor; [|constructor; [|constructor; [|constructor]]].
    + apply pm_key; [|discriminate]. apply P; [now apply NP|]. apply (fo_hex "="%byte "3"%byte "D"%byte); [apply HX; reflexivity..|constructor].
    + apply (pm_pair (B "kp") (B "SHA256/X ;") (B "k%70") (B "SHA256%2fX+%3b")).
      * apply P; [now apply NP|]. apply (fo_hex "p"%byte "7"%byte "0"%byte); [apply HX; reflexivity..|constructor].
      * do 6 (apply P; [now apply NP|]). apply (fo_hex "/"%byte "2"%byte "f"%byte); [apply HX; reflexivity..|]. apply P; [now apply NP|]. apply fo_space.
        apply (fo_hex ";"%byte "3"%byte "b"%byte); [apply HX; reflexivity..|constructor].
    + apply (pm_pair (B "kp") (B "no") (B "kp") (B "no")); repeat (apply P; [now apply NP|]); constructor.
  - apply fi_later; [discriminate|]. apply fi_here.
  - vm_compute. reflexivity.
Qed.
Example C131_broken_case : broken (B "kp=%4x%") /\ keyprint_from_url false (B "kp=%4x%&kp=1") = B "1".
Proof.
  split; [|vm_compute; reflexivity]. split; [cbn; intuition discriminate|]. split; [cbn; intuition discriminate|].
  exists (B "kp="), (B "4x%"). split; [reflexivity|]. split; [cbn; intuition discriminate|].
  intros x y r n m E _ H. injection E as <- <- <-. apply hex_value_of in H. discriminate.
Qed.
Definition C131_sha (b : bytes) : bytes := firstn 32 (b ++ repeat x00 32).
Example C131_keyprint_case : length (C131_sha (B "cert")) = 32 /\
  keyprint_from_url false (B "x=1&kp=" ++ keyprint_bytes C131_sha (B "cert")) = keyprint_bytes C131_sha (B "cert").
Proof. split; vm_compute; reflexivity. Qed.

(** ** C132: NewPID. *)

(** The claim that a PID without error is random in all its bytes is false for a source which,
    as io.Reader allows, returns less than it was asked for. *)
Theorem C132_short_refuted : exists data, length data < 24 /\ new_pid data None = (data ++ repeat x00 (24 - length data), None).
Proof. exists (B "abcd"). split; [vm_compute; lia|reflexivity]. Qed.
Print Assumptions C132_short_refuted.

(** It is true for a source that fills the array or fails; a short answer leaves zeros. *)
Theorem C132_full_partial data e : length data <= 24 ->
  length (fst (new_pid data e)) = 24 /\ snd (new_pid data e) = e /\
  (length data = 24 -> fst (new_pid data e) = data) /\
  (forall k, k < 24 -> nth k (fst (new_pid data e)) x00 = nth k data x00).
Proof.
  intros H. unfold new_pid. cbn [fst snd]. rewrite firstn_all2 by exact H.
  assert (L : length (data ++ skipn (length data) (repeat x00 24)) = 24) by (rewrite app_length, skipn_length, repeat_length; lia).
  split; [exact L|]. split; [reflexivity|]. split.
  - intros E. rewrite E. change (skipn 24 (repeat x00 24)) with (@nil byte). apply app_nil_r.
  - intros k Hk. destruct (Nat.ltb_spec k (length data)) as [K|K]; [now rewrite app_nth1|].
    rewrite app_nth2 by exact K. rewrite (nth_overflow data) by exact K.
    assert (Z : forall a i n, nth i (skipn a (repeat x00 n)) x00 = x00).
    { intros a i n. destruct (nth_in_or_default i (skipn a (repeat x00 n)) x00) as [I|I]; [|exact I].
      assert (J : In (nth i (skipn a (repeat x00 n)) x00) (repeat x00 n)) by (rewrite <- (firstn_skipn a (repeat x00 n)) at 2; apply in_app_iff; now right).
      now apply repeat_spec in J. }
    apply Z.
Qed.
Print Assumptions C132_full_partial.
Example C132_case : new_pid (B "abcdefghijklmnopqrstuvwx") None = (B "abcdefghijklmnopqrstuvwx", None) /\
  new_pid (B "") (Some (EText "no entropy")) = (repeat x00 24, Some (EText "no entropy")).
Proof. split; vm_compute; reflexivity. Qed.
