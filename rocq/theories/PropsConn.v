(** Property theorems C76, C77, C84, C85: file extension groups and addresses.
    Specifications: SpecExt.v, SpecConn.v.  Proofs: AdcExtFacts.v, ConnFacts.v; ConnDemo.v has
    a parser for the instances. *)
From Verif Require Import Base BaseFacts Utf8 AdcExt SpecExt AdcExtFacts ConnAddr SpecConn ConnFacts ConnDemo.
From Coq Require Import ZifyBool ZifyNat ZifyN.

(** ** C76: extension groups *)

(** [ulow] is unicode.ToLower outside of ASCII; all that matters is that it keeps U+FFFD. *)
Theorem C76_matches ulow t name : ulow rune_error = rune_error ->
  (ext_matches ulow t name = true <-> t = 0%Z \/ exists ext e g, extension name ext /\ spells ulow ext e /\ in_group g e /\ Z.land t g <> 0%Z).
Proof. exact (ext_matches_spec ulow t name). Qed.
Print Assumptions C76_matches.

(** An extension is in at most one group, and the groups have no bits in common. *)
Theorem C76_disjoint ulow g1 g2 name : ulow rune_error = rune_error -> In g1 (map fst ext_list) -> In g2 (map fst ext_list) ->
  ext_matches ulow g1 name = true -> ext_matches ulow g2 name = true -> g1 = g2.
Proof.
  intros U I1 I2 M1 M2. unfold ext_matches, ext_has in M1, M2. cbn in I1, I2.
  set (x := group_of ext_groups _) in *. assert (X : x = 0%Z \/ In x (map fst ext_list)).
  { destruct (Z.eq_dec x 0) as [E|E]; [now left|]. right. assert (K : in_group x (to_lower ulow (match last_cut "."%byte name with Some (_, e) => e | None => name end))) by (apply group_of_spec; [exact E|reflexivity]).
    destruct K as (l & a & b & K & _). now apply (in_map fst) in K. }
  clearbody x. cbn in X. repeat match goal with H : _ \/ _ |- _ => destruct H | H : False |- _ => destruct H end; subst; try reflexivity; try discriminate M1; try discriminate M2.
Qed.
Print Assumptions C76_disjoint.

(** With the lower case of the letter K written as the Kelvin sign, U+212A *)
Example C76_instance : let ulow r := if (r =? 8490)%N then 107%N else r in
  ext_matches ulow 32 (B "a.b.MkV") = true /\ ext_matches ulow 17 (B "a.b.MkV") = false /\ ext_matches ulow (-1) (B "zip") = true /\
  ext_matches ulow 32 (B "a.m" ++ encode_scalar 8490 ++ B "V") = true /\ ext_matches ulow 63 (B "mkv.") = false /\
  extension (B "a.b.MkV") (B "MkV") /\ spells ulow (B "MkV") (B "mkv") /\ in_group 32 (B "mkv").
Proof.
  cbv zeta. do 5 (split; [vm_compute; reflexivity|]). split.
  { split; [cbn; intuition discriminate|]. right. now exists (B "a.b"). }
  split; [|now apply group_of_spec].
  exists [77; 107; 86]%N. split; [repeat constructor|]. split; [reflexivity|].
  repeat constructor; unfold lower_rune; change (b2n "m"%byte) with 109%N; change (b2n "k"%byte) with 107%N; change (b2n "v"%byte) with 118%N; lia.
Qed.

(** ** C77: dispatch by scheme *)

(** The full statement is false: a host name can start with "adc", and the scheme can be written in capitals. *)
Theorem C77_dispatch_refuted : ~ (forall parse addr, reports_scheme parse ->
    ((exists s, In s adc_schemes /\ has_scheme addr s) -> dc_parse_addr parse addr = adc_parse_addr parse addr) /\
    (~ (exists s, In s adc_schemes /\ has_scheme addr s) -> dc_parse_addr parse addr = nmdc_parse_addr parse addr)) /\
  (exists u, nmdc_parse_addr demo_parse (B "adchub.example.com") = Ok u /\ dc_parse_addr demo_parse (B "adchub.example.com") = Err (EText "unsupported protocol")) /\
  (exists u, adc_parse_addr demo_parse (B "ADC://hub:1") = Ok u /\ dc_parse_addr demo_parse (B "ADC://hub:1") = Err (EText "unsupported protocol")).
Proof.
  split; [|split; eexists; (split; [vm_compute; reflexivity|vm_compute; reflexivity])].
  intros H. destruct (H demo_parse (B "adchub.example.com") demo_reports) as [_ K].
  assert (N : ~ exists s, In s adc_schemes /\ has_scheme (B "adchub.example.com") s).
  { intros (s & _ & w & rest & E & _). assert (I : In ":"%byte (B "adchub.example.com")) by (rewrite E; rewrite in_app_iff; right; now left). cbn in I. intuition discriminate. }
  specialize (K N). vm_compute in K. discriminate K.
Qed.
Print Assumptions C77_dispatch_refuted.

(** It holds if the address is written with a scheme in lower case. *)
Theorem C77_dispatch_partial parse addr w rest : reports_scheme parse -> addr = w ++ B "://" ++ rest -> scheme_text w -> Forall (fun b => ~ upper_letter b) w ->
  (In w adc_schemes -> dc_parse_addr parse addr = adc_parse_addr parse addr /\ forall str, dc_normalize_addr parse str addr = adc_normalize_addr parse str addr) /\
  (~ In w adc_schemes -> dc_parse_addr parse addr = nmdc_parse_addr parse addr /\ forall str, dc_normalize_addr parse str addr = nmdc_normalize_addr parse str addr).
Proof. exact (dispatch parse addr w rest). Qed.
Print Assumptions C77_dispatch_partial.

(** An accepted address is one of the two protocols; it is ADC iff its text starts with "adc", and
    then its scheme really is adc or adcs. *)
Theorem C77_accepted parse addr u : reports_scheme parse -> dc_parse_addr parse addr = Ok u ->
  (In (u_scheme u) adc_schemes /\ has_scheme addr (u_scheme u) /\ exists r, addr = B "adc" ++ r) \/
  (In (u_scheme u) nmdc_schemes /\ ~ exists r, addr = B "adc" ++ r).
Proof.
  intros R. unfold dc_parse_addr. destruct (has_prefix (B "adc") addr) eqn:P; intros H.
  - left. apply adc_parsed in H. destruct H as (u0 & P0 & I & E & _). rewrite E. split; [exact I|]. split; [|now apply has_prefix_spec].
    destruct (R _ _ P0) as [K|[K _]]; [exact K|]. rewrite K in I. destruct I as [I|[I|[]]]; discriminate I.
  - right. apply nmdc_parsed in H. destruct H as (u0 & P0 & I & _). split; [destruct I as [[_ ->]|[I ->]]; [now left|exact I]|].
    intros K. apply has_prefix_spec in K. congruence.
Qed.
Print Assumptions C77_accepted.

Example C77_instance :
  B "adcs://hub:5" = B "adcs" ++ B "://" ++ B "hub:5" /\ scheme_text (B "adcs") /\ Forall (fun b => ~ upper_letter b) (B "adcs") /\
  dc_parse_addr demo_parse (B "adcs://hub:5//") = Ok (mkUrl (B "adcs") (B "hub:5") [] []) /\
  dc_parse_addr demo_parse (B "nmdc://hub/") = Ok (mkUrl (B "dchub") (B "hub") [] []) /\
  dc_parse_addr demo_parse (B "hub:411") = Ok (mkUrl (B "dchub") (B "hub:411") [] []) /\
  dc_parse_addr demo_parse (B "http://hub") = Err (EText "unsupported protocol").
Proof.
  split; [reflexivity|]. split.
  { split; [|right; unfold lower_letter; cbn; lia]. change (B "adcs") with ["a"; "d"; "c"; "s"]%byte. repeat (apply Forall_cons; [right; left; unfold lower_letter; cbn; lia|]). constructor. }
  split; [change (B "adcs") with ["a"; "d"; "c"; "s"]%byte; repeat (apply Forall_cons; [unfold upper_letter; cbn; lia|]); constructor|]. repeat split; vm_compute; reflexivity.
Qed.

(** ** C84: what NormalizeAddr accepts *)

(** ADC: exactly the addresses with host and port, NMDC: with a host; slashes at the end of the
    path are dropped.  [with_default] is the address, after "dchub://" if it has no "://". *)
Theorem C84_adc parse str addr s : adc_normalize_addr parse str addr = Ok s <->
  exists u0 path h p, parse addr = Ok u0 /\ In (u_scheme u0) adc_schemes /\ host_port (u_host u0) h p /\ h <> [] /\ no_slash_end (u_path u0) path /\
    s = str (mkUrl (u_scheme u0) (u_host u0) path (u_rest u0)).
Proof.
  rewrite adc_normalized. split.
  - intros (u & h & p & HP & HH & HN & ->). apply adc_parsed in HP. destruct HP as (u0 & P0 & I & E1 & E2 & E3 & E4). exists u0, (u_path u), h, p. rewrite <- E2. repeat (split; [assumption|]). destruct u. cbn in *. congruence.
  - intros (u0 & path & h & p & P0 & I & HH & HN & HS & ->). exists (mkUrl (u_scheme u0) (u_host u0) path (u_rest u0)), h, p. split; [apply adc_parsed; exists u0; repeat (split; [first [exact P0|exact I|reflexivity]|]); exact HS|]. split; [exact HH|]. split; [exact HN|reflexivity].
Qed.
Print Assumptions C84_adc.

Theorem C84_nmdc parse str addr s : nmdc_normalize_addr parse str addr = Ok s <->
  exists u0 scheme path h, (forall x, (exists a r, addr = a ++ B "://" ++ r) /\ x = addr \/ ~ (exists a r, addr = a ++ B "://" ++ r) /\ x = B "dchub://" ++ addr -> parse x = Ok u0) /\
    (u_scheme u0 = B "nmdc" /\ scheme = B "dchub" \/ In (u_scheme u0) nmdc_schemes /\ scheme = u_scheme u0) /\
    ((exists p, host_port (u_host u0) h p) \/ bare_host (u_host u0) h) /\ h <> [] /\ no_slash_end (u_path u0) path /\ s = str (mkUrl scheme (u_host u0) path (u_rest u0)).
Proof.
  assert (W : forall u0, parse (with_default addr) = Ok u0 <-> (forall x, (exists a r, addr = a ++ B "://" ++ r) /\ x = addr \/ ~ (exists a r, addr = a ++ B "://" ++ r) /\ x = B "dchub://" ++ addr -> parse x = Ok u0)).
  { intros u0. unfold with_default. destruct (index (B "://") addr) as [i|] eqn:K.
    - assert (O : exists a r, addr = a ++ B "://" ++ r) by (apply index_some in K; destruct K as (r & K & _); now exists (firstn i addr), r).
      split; [intros H x [[_ ->]|[N _]]; [exact H|contradiction]|]. intros H. apply H. now left.
    - assert (O : ~ exists a r, addr = a ++ B "://" ++ r) by (apply index_none in K; intros (a & r & E); apply K; now exists a, r).
      split; [intros H x [[N _]|[_ ->]]; [contradiction|exact H]|]. intros H. apply H. now right. }
  rewrite nmdc_normalized. split.
  - intros (u & h & HP & HH & HN & ->). apply nmdc_parsed in HP. destruct HP as (u0 & P0 & I & E2 & E3 & E4). exists u0, (u_scheme u), (u_path u), h. rewrite <- E2. split; [now apply W|]. repeat (split; [assumption|]). destruct u. cbn in *. congruence.
  - intros (u0 & scheme & path & h & P0 & I & HH & HN & HS & ->). apply W in P0. exists (mkUrl scheme (u_host u0) path (u_rest u0)), h. split; [apply nmdc_parsed; exists u0; split; [exact P0|]; split; [exact I|]; repeat (split; [reflexivity|]); exact HS|]. split; [exact HH|]. split; [exact HN|reflexivity].
Qed.
Print Assumptions C84_nmdc.

(** the cases of nmdc/conn_test.go, and others *)
Example C84_instance :
  map (nmdc_normalize_addr demo_parse demo_string) [B "localhost"; B "[::]"; B ":411"; B "dchub://localhost"; B "dchub://[::]"; B "dchub://localhost:411"; B "dchub://[::]:411"] =
    [Ok (B "dchub://localhost"); Ok (B "dchub://[::]"); Err (EText "no hostname in address"); Ok (B "dchub://localhost"); Ok (B "dchub://[::]"); Ok (B "dchub://localhost:411"); Ok (B "dchub://[::]:411")] /\
  map (adc_normalize_addr demo_parse demo_string) [B "adc://h:1/x//"; B "adc://h"; B "adcs://[::]:5"; B "adc://:5"; B "adc://[a]b:5"] =
    [Ok (B "adc://h:1/x"); Err (EText "failed to parse host-port pair"); Ok (B "adcs://[::]:5"); Err (EText "no hostname in address"); Err (EText "failed to parse host-port pair")] /\
  host_port (B "[::]:5") (B "::") (B "5") /\ bare_host (B "[::]") (B "::") /\ no_slash_end (B "/x//") (B "/x").
Proof.
  split; [vm_compute; reflexivity|]. split; [vm_compute; reflexivity|]. split; [now apply split_host_port_spec|]. split; [right; split; [intros b I; cbn in I; intuition (subst; discriminate)|reflexivity]|].
  split; [now exists 2|]. intros q E. apply (f_equal (@rev byte)) in E. rewrite rev_app_distr in E. discriminate E.
Qed.

(** ** C85: normalizing is idempotent *)
Theorem C85_idempotent parse str : prints parse str ->
  (forall addr s, adc_normalize_addr parse str addr = Ok s -> adc_normalize_addr parse str s = Ok s) /\
  (forall addr s, nmdc_normalize_addr parse str addr = Ok s -> nmdc_normalize_addr parse str s = Ok s) /\
  (forall addr s, dc_normalize_addr parse str addr = Ok s -> dc_normalize_addr parse str s = Ok s).
Proof.
  intros P. destruct (normalize_again parse str P) as [A N]. split; [|split].
  - intros addr s H. exact (proj1 (A _ _ H)).
  - intros addr s H. exact (proj1 (N _ _ H)).
  - intros addr s H. unfold dc_normalize_addr in H. destruct (has_prefix (B "adc") addr); [exact (proj2 (A _ _ H))|exact (proj2 (N _ _ H))].
Qed.
Print Assumptions C85_idempotent.

Example C85_instance : prints demo_parse demo_string /\
  dc_normalize_addr demo_parse demo_string (B "nmdc://hub//") = Ok (B "dchub://hub") /\ dc_normalize_addr demo_parse demo_string (B "adc://hub:1/") = Ok (B "adc://hub:1").
Proof. split; [exact demo_prints|]. split; vm_compute; reflexivity. Qed.
