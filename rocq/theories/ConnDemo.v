(** A parser of "scheme://host/path" with the properties required of url.Parse and URL.String in
    C77, C84, C85; used only to show that these properties can be met. *)
From Verif Require Import Base BaseFacts ConnAddr SpecConn ConnFacts.
From Coq Require Import ZifyBool ZifyNat ZifyN.

Definition lower (b : byte) : byte := if ((65 <=? b2n b) && (b2n b <=? 90))%N then n2b (b2n b + 32) else b.
Definition letterb (b : byte) : bool := ((65 <=? b2n b) && (b2n b <=? 90) || (97 <=? b2n b) && (b2n b <=? 122))%N%bool.
Definition otherb (b : byte) : bool := ((48 <=? b2n b) && (b2n b <=? 57))%N || beq b "+"%byte || beq b "-"%byte || beq b "."%byte.
Fixpoint demo_scheme (s : bytes) : option (bytes * bytes) :=
  match s with
  | [] => None
  | c :: t => if beq c ":"%byte then Some ([], t) else if letterb c || otherb c then option_map (fun p => (lower c :: fst p, snd p)) (demo_scheme t) else None
  end.
Definition demo_parse (a : bytes) : res url :=
  match (if letterb (hd ":"%byte a) then demo_scheme a else None) with
  | None => Ok (mkUrl [] [] a [])
  | Some (s, rest) =>
      if has_prefix (B "//") rest then
        match cut "/"%byte (skipn 2 rest) with
        | Some (h, p) => Ok (mkUrl s h ("/"%byte :: p) [])
        | None => Ok (mkUrl s (skipn 2 rest) [] [])
        end
      else Ok (mkUrl s [] [] rest)
  end.
Definition demo_string (u : url) : bytes := u_scheme u ++ B "://" ++ u_host u ++ u_path u.

Lemma lower_spec c : (upper_letter c /\ b2n (lower c) = (b2n c + 32)%N) \/ (~ upper_letter c /\ c = lower c).
Proof.
  unfold lower, upper_letter. destruct ((65 <=? b2n c) && (b2n c <=? 90))%N eqn:E; [left|right; split; [lia|reflexivity]].
  rewrite b2n_n2b by lia. lia.
Qed.
Lemma letterb_spec c : letterb c = true <-> upper_letter c \/ lower_letter c.
Proof. unfold letterb, upper_letter, lower_letter. lia. Qed.
Lemma schemeb_spec c : letterb c || otherb c = true <-> scheme_byte c.
Proof.
  unfold scheme_byte, otherb. rewrite orb_true_iff, letterb_spec, !orb_true_iff. rewrite <- !beq_true. intuition lia.
Qed.
Lemma demo_scheme_some : forall s w rest, demo_scheme s = Some (w, rest) <-> exists w0, s = w0 ++ B ":" ++ rest /\ Forall scheme_byte w0 /\ lowers w0 w.
Proof.
  induction s as [|c s IH]; intros w rest.
  - split; [discriminate|]. intros (w0 & E & _). now destruct w0.
  - cbn [demo_scheme]. destruct (beq c ":"%byte) eqn:C.
    + apply beq_true in C. subst c. split.
      * intros [= <- <-]. exists []. repeat split; constructor.
      * intros (w0 & E & F & L). destruct w0 as [|x w0]; [injection E as ->; inversion L; reflexivity|]. injection E as <- _. exfalso. apply (scheme_no_colon _ F). now left.
    + destruct (letterb c || otherb c) eqn:K.
      * apply schemeb_spec in K. split.
        -- destruct (demo_scheme s) as [[w1 r1]|] eqn:D; [|discriminate]. intros [= <- <-]. destruct (proj1 (IH w1 r1) eq_refl) as (w0 & -> & F & L). exists (c :: w0). split; [reflexivity|]. split; [now constructor|]. constructor; [apply lower_spec|exact L].
        -- intros (w0 & E & F & L). destruct w0 as [|x w0]; [injection E as -> _; discriminate C|]. injection E as <- E. destruct w as [|y w']; [inversion L|]. assert (H1 : lowers [c] [y]) by (inversion L; subst; constructor; [assumption|constructor]). assert (H2 : lowers w0 w') by (inversion L; assumption). apply Forall_cons_iff in F. destruct F as [_ F].
           assert (D : demo_scheme s = Some (w', rest)) by (apply IH; now exists w0). rewrite D. cbn [option_map fst snd]. do 2 f_equal.
           assert (Q : lowers [c] [lower c]) by (constructor; [apply lower_spec|constructor]).
           pose proof (lowers_fun _ _ _ Q H1) as Q3. injection Q3 as ->. reflexivity.
      * split; [discriminate|]. intros (w0 & E & F & L). destruct w0 as [|x w0]; [injection E as -> _; discriminate C|]. injection E as <- _. apply Forall_cons_iff in F. destruct F as [F _]. apply schemeb_spec in F. congruence.
Qed.

Lemma demo_shape a u : demo_parse a = Ok u ->
  (has_scheme a (u_scheme u) \/ (u_scheme u = [] /\ forall s, ~ has_scheme a s)) /\
  (u_host u <> [] -> u_rest u = [] /\ ~ In "/"%byte (u_host u) /\ (u_path u = [] \/ exists p, u_path u = "/"%byte :: p)).
Proof.
  unfold demo_parse. destruct (if letterb (hd ":"%byte a) then demo_scheme a else None) as [[s rest]|] eqn:E.
  - destruct (letterb (hd ":"%byte a)) eqn:L; [|discriminate]. apply demo_scheme_some in E. destruct E as (w & -> & F & K).
    assert (HS : has_scheme (w ++ B ":" ++ rest) s). { exists w, rest. split; [reflexivity|]. split; [|exact K]. split; [exact F|]. destruct w as [|b w]; [discriminate L|]. now apply letterb_spec. }
    destruct (has_prefix (B "//") rest) eqn:P.
    + destruct (cut "/"%byte (skipn 2 rest)) as [[h p]|] eqn:C; intros [= <-]; cbn [u_scheme u_host u_path u_rest]; (split; [now left|]); intros _; (split; [reflexivity|]).
      * apply cut_spec in C. split; [apply C|]. right. now exists p.
      * apply cut_none in C. split; [exact C|now left].
    + intros [= <-]. cbn. split; [now left|]. intros H. now elim H.
  - intros [= <-]. cbn. split; [right; split; [reflexivity|]|intros H; now elim H].
    intros s (w & rest & -> & [F T] & L). destruct w as [|b w]; [exact T|]. cbn [app hd] in E. apply letterb_spec in T. rewrite T in E.
    assert (D : demo_scheme ((b :: w) ++ B ":" ++ rest) = Some (s, rest)) by (apply demo_scheme_some; now exists (b :: w)). change ((b :: w) ++ B ":" ++ rest) with (b :: w ++ B ":" ++ rest) in D. congruence.
Qed.
Lemma demo_reports : reports_scheme demo_parse.
Proof. intros a u H. exact (proj1 (demo_shape a u H)). Qed.

Lemma demo_prints : prints demo_parse demo_string.
Proof.
  intros u I H (a & u0 & P & E1 & E2 & E3). rewrite E1 in H. destruct (proj2 (demo_shape a u0 P) H) as (R & N & Q).
  split; [now eexists|]. exists u. split; [|now repeat split].
  assert (Q' : u_path u = [] \/ exists p, u_path u = "/"%byte :: p).
  { destruct E3 as [[n E3] _]. destruct (u_path u) as [|c p]; [now left|]. right. destruct Q as [Q|[p' Q]]; rewrite Q in E3; [discriminate E3|]. injection E3 as <- _. now exists p. }
  assert (S : forall t, demo_scheme (u_scheme u ++ B ":" ++ t) = Some (u_scheme u, t) /\ letterb (hd ":"%byte (u_scheme u ++ B ":" ++ t)) = true).
  { intros t. cbn in I. destruct I as [<-|[<-|[<-|[<-|[]]]]]; split; reflexivity. }
  unfold demo_parse, demo_string. specialize (S (B "//" ++ u_host u ++ u_path u)). destruct S as [S1 S2].
  change (B "://" ++ u_host u ++ u_path u) with (B ":" ++ B "//" ++ u_host u ++ u_path u). rewrite S2, S1. rewrite has_prefix_app.
  change (skipn 2 (B "//" ++ u_host u ++ u_path u)) with (u_host u ++ u_path u). rewrite <- E1 in N. destruct u as [s h p r]. cbn [u_scheme u_host u_path u_rest] in *. subst r. rewrite R.
  destruct Q' as [->|[p' ->]].
  - rewrite app_nil_r, (proj2 (cut_none _ _) N). reflexivity.
  - now rewrite cut_app.
Qed.

