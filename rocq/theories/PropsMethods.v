(** Property C125: texts for people, and kinds of users. *)
From Verif Require Import Base BaseFacts Num NumFacts SpecText NmdcText NmdcChat AdcMessage Methods.
From Coq Require Import Lia.

(** ** C125: String of a chat message, Error of a status, Is of a kind of users *)

(** The text shown for a chat line is the payload exactly when nothing in it must be escaped. *)
Definition plain_in (special s : bytes) : Prop := Forall (fun c => ~ In c special) s.
Lemma escape_string_grows s r : escape_string s = Ok r -> length s <= length r /\ (length r = length s <-> plain_in (B "&$|") s) /\ (plain_in (B "&$|") s -> r = s).
Proof.
  unfold plain_in. revert r. induction s as [|c s IH]; intros r H; cbn [escape_string] in H.
  - injection H as <-. repeat split; auto.
  - destruct (beq c x00); [discriminate|]. destruct (escape_string s) as [w| |]; [|discriminate|discriminate]. cbn [bind] in H. injection H as <-.
    destruct (IH w eq_refl) as (L & E & P). unfold esc_char_string, delimiter.
    destruct (beq_spec c "&"%byte); [|destruct (beq_spec c "$"%byte); [|destruct (beq_spec c "|"%byte)]]; rewrite ?app_length; cbn [length].
    1-3: subst; split; [change (length (B "&amp;")) with 5; change (length (B "&#36;")) with 5; change (length (B "&#124;")) with 6; lia|]; split; [split; [change (length (B "&amp;")) with 5; change (length (B "&#36;")) with 5; change (length (B "&#124;")) with 6; lia|]|];
      intros F; inversion F as [|? ? N]; exfalso; apply N; vm_compute; tauto.
    split; [lia|]. split.
    + split; [intros X; constructor; [intros K; change (In c ["&"%byte; "$"%byte; "|"%byte]) in K; destruct K as [K|[K|[K|[]]]]; congruence|apply E; lia]|]. intros F. inversion F; subst. apply E in H2. cbn [app length]. lia.
    + intros F. inversion F; subst. cbn [app]. f_equal. now apply P.
Qed.
Lemma escape_name_grows s r : escape_name s = Ok r -> length s <= length r /\ (length r = length s <-> plain_in (B "&<>$|") s) /\ (plain_in (B "&<>$|") s -> r = s).
Proof.
  unfold plain_in. revert r. induction s as [|c s IH]; intros r H; cbn [escape_name] in H.
  - injection H as <-. repeat split; auto.
  - destruct (invalid_char_name c); [discriminate|]. destruct (escape_name s) as [w| |]; [|discriminate|discriminate]. cbn [bind] in H. injection H as <-.
    destruct (IH w eq_refl) as (L & E & P). unfold esc_char_name, delimiter.
    destruct (beq_spec c "&"%byte); [|destruct (beq_spec c "<"%byte); [|destruct (beq_spec c ">"%byte); [|destruct (beq_spec c "$"%byte); [|destruct (beq_spec c "|"%byte)]]]]; rewrite ?app_length; cbn [length].
    1-5: subst; split; [change (length (B "&amp;")) with 5; change (length (B "&lt;")) with 4; change (length (B "&gt;")) with 4; change (length (B "&#36;")) with 5; change (length (B "&#124;")) with 6; lia|]; split;
      [split; [change (length (B "&amp;")) with 5; change (length (B "&lt;")) with 4; change (length (B "&gt;")) with 4; change (length (B "&#36;")) with 5; change (length (B "&#124;")) with 6; lia|]|];
      intros F; inversion F as [|? ? N]; exfalso; apply N; vm_compute; tauto.
    split; [lia|]. split.
    + split; [intros X; constructor; [intros K; change (In c ["&"%byte; "<"%byte; ">"%byte; "$"%byte; "|"%byte]) in K; destruct K as [K|[K|[K|[K|[K|[]]]]]]; congruence|apply E; lia]|]. intros F. inversion F; subst. apply E in H2. cbn [app length]. lia.
    + intros F. inversion F; subst. cbn [app]. f_equal. now apply P.
Qed.
Theorem C125_chat : forall m p, chat_marshal None m = Ok p -> (chat_string m = p <-> plain_in (B "&<>$|") (ch_name m) /\ plain_in (B "&$|") (ch_text m)).
Proof.
  intros [n t] p H. unfold chat_marshal, chat_string in *. cbn [ch_name ch_text] in *. unfold string_marshal, name_marshal in H. cbn [run_codec bind] in H.
  destruct n as [|c n].
  - cbn [bind] in H. destruct (escape_string t) as [w| |] eqn:E; [|discriminate|discriminate]. cbn [bind app] in H. injection H as <-.
    destruct (escape_string_grows t w E) as (L & I & P). split; [intros <-; split; [constructor|now apply I]|]. intros [_ F]. now rewrite (P F).
  - destruct (_ <? _); [discriminate|]. cbn [bind] in H. destruct (escape_name (c :: n)) as [b| |] eqn:N; [|discriminate|discriminate]. cbn [bind] in H.
    destruct (escape_string t) as [w| |] eqn:E; [|discriminate|discriminate]. cbn [bind] in H. injection H as <-.
    destruct (escape_string_grows t w E) as (L & I & P). destruct (escape_name_grows (c :: n) b N) as (L' & I' & P'). split.
    + intros X. apply (f_equal (@length byte)) in X. rewrite !app_length in X. change (length (B "<")) with 1 in X. cbn [length] in X. rewrite !app_length in X. change (length (B "> ")) with 2 in X. cbn [length] in *.
      split; [apply I'|apply I]; lia.
    + intros [F G]. now rewrite (P G), (P' F), <- !app_assoc.
Qed.
Print Assumptions C125_chat.
Example C125_chat_case : chat_marshal None (mk_chat (B "nick") (B "a > b")) = Ok (B "<nick> a > b") /\ chat_string (mk_chat (B "nick") (B "a > b")) = B "<nick> a > b" /\
  chat_marshal None (mk_chat (B "nick") (B "a & b")) = Ok (B "<nick> a &amp; b") /\ chat_string (mk_chat (B "nick") (B "a & b")) = B "<nick> a & b" /\
  chat_string (mk_chat [] (B "* x")) = B "* x".
Proof. repeat split. Qed.

(** The error for a status tells its code and message, whatever they contain, and not its severity. *)
Lemma int_unique s z z' : denotes_int s z -> denotes_int s z' -> z = z'.
Proof.
  intros H H'. assert (X : forall d n, digits_acc 0 ("+"%byte :: d) <> Some n /\ digits_acc 0 ("-"%byte :: d) <> Some n) by (intros d n; split; discriminate).
  destruct H; inversion H'; subst; try congruence; exfalso; match goal with E : digits_acc 0 (_ :: ?d) = Some ?n |- _ => apply (X d n) in E || (destruct (X d n); contradiction) end; assumption.
Qed.
Theorem C125_error : forall a b, status_error a = status_error b <-> st_code a = st_code b /\ st_msg a = st_msg b.
Proof.
  intros [s1 c1 m1] [s2 c2 m2]. unfold status_error. cbn [st_code st_msg]. split; [|intros [-> ->]; reflexivity].
  intros H. apply app_inv_head in H. 
  assert (F : forall z x, cut ":" (format_int z ++ B ": " ++ x) = Some (format_int z, B " " ++ x)).
  { intros z x. apply cut_app. apply format_int_notin; [reflexivity|discriminate]. }
  pose proof (f_equal (cut ":") H) as K. rewrite !F in K. injection K as K ->. split; [|reflexivity].
  pose proof (denotes_format_int c1) as D1. pose proof (denotes_format_int c2) as D2. rewrite K in D1. exact (int_unique _ _ _ D1 D2).
Qed.
Print Assumptions C125_error.
Example C125_error_case : status_error (Build_status 2 26 (B "banned: 3: x")) = B "code 26: banned: 3: x".
Proof. reflexivity. Qed.

(** A user is of a kind if the two have a bit in common; kinds can be combined. *)
Theorem C125_user_type : forall t st, user_type_is t st = true <-> exists n, (0 <= n)%Z /\ Z.testbit t n = true /\ Z.testbit st n = true.
Proof.
  intros t st. unfold user_type_is. rewrite Bool.negb_true_iff, Z.eqb_neq. split.
  - intros N. destruct (Z.eq_dec (Z.land t st) 0) as [|_]; [contradiction|].
    destruct (Z_lt_le_dec (Z.land t st) 0) as [L|L].
    + apply Z.land_neg in L as [L1 L2]. exists (1 + Z.max (Z.log2 (Z.pred (- t))) (Z.log2 (Z.pred (- st))))%Z.
      pose proof (Z.log2_nonneg (Z.pred (- t))). split; [lia|]. split; apply Z.bits_above_log2_neg; lia.
    + exists (Z.log2 (Z.land t st)). split; [apply Z.log2_nonneg|]. assert (X : Z.testbit (Z.land t st) (Z.log2 (Z.land t st)) = true) by (apply Z.bit_log2; lia).
      rewrite Z.land_spec in X. now apply andb_prop in X.
  - intros (n & P & A & C) Z0. assert (X : Z.testbit (Z.land t st) n = true) by (rewrite Z.land_spec, A, C; reflexivity). rewrite Z0, Z.bits_0 in X. discriminate.
Qed.
Print Assumptions C125_user_type.
Theorem C125_user_types : forall t a b, user_type_is t (Z.lor a b) = (user_type_is t a || user_type_is t b)%bool /\ user_type_is t 0 = false.
Proof.
  intros t a b. split; [|unfold user_type_is; now rewrite Z.land_0_r]. apply Bool.eq_true_iff_eq. rewrite Bool.orb_true_iff, !C125_user_type. split.
  - intros (n & P & A & C). rewrite Z.lor_spec in C. apply Bool.orb_prop in C as [C|C]; [left|right]; eauto.
  - intros [(n & P & A & C)|(n & P & A & C)]; exists n; rewrite Z.lor_spec, C, ?Bool.orb_true_r; auto.
Qed.
Print Assumptions C125_user_types.
(** An operator who is registered; a bot; a negative number has the sign bit. *)
Example C125_user_type_case : user_type_is 6 4 = true /\ user_type_is 6 1 = false /\ user_type_is 1 (Z.lor 2 1) = true /\ user_type_is (-1) 64 = true.
Proof. repeat split. Qed.
