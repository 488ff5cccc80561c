(** Props_SuiteChain.v -- the test of GetCertificateChain of the verification suite
    (verification/testing/getCertificateChain.go, certifyKey.go).  Property C63. *)
From Verif Require Import Base Errors Types StateOps Env Wire Instance Commands RespBuf Response X509 X509Cert RustCrypto DefaultPlatform Simulator GoClient Suite ClientSpec
  Lib Spec Exec Effects Forest History WireSpec Contract Codec Steps Reach CommandSpecs Responses Execute Walk Measure Reasons Explain Avail X509Spec X509Cmd X509Facts
  X509Fit X509Fail X509Sane PlatformProofs RustProofs Trace TraceCmds TraceRust RefFaults Toy Ledger Props_Commands Props_Keys Props_Avail Props_Reference Props_Size Props_Fail Props_Calls
  Props_Handles Props_Tree Props_Harness SimulatorProofs Props_Simulator ClientProofs ClientChain Props_Client SuiteProofs SuiteCases SuiteInit SuiteRun Props_Suite
  SuiteChain SuiteChainProofs.
Local Open Scope N_scope.

(** What Go's libraries say of certificates. *)
Record libraries (Z : Type) := {
  li_parse : bytes -> option (list go_cert); li_zparse : bytes -> option (list Z); li_lints : Z -> nat;
  li_key : bytes -> bool; li_signed : bytes -> bytes -> bytes -> bool;
  li_verify : go_cert -> list go_cert -> go_cert -> bool * nat
}.
Arguments li_parse {Z}. Arguments li_zparse {Z}. Arguments li_lints {Z}. Arguments li_key {Z}. Arguments li_signed {Z}. Arguments li_verify {Z}.
Notation checked T L := (check_chain T _ (li_parse L) (li_zparse L) (li_lints L) (li_key L) (li_signed L) (li_verify L)).
Notation tested T send c L := (test_chain T send c _ (li_parse L) (li_zparse L) (li_lints L) (li_key L) (li_signed L) (li_verify L)).
Notation run_test T send sup c L := (run_chain T send sup c _ (li_parse L) (li_zparse L) (li_lints L) (li_key L) (li_signed L) (li_verify L)).

(** A certificate stripped of all unhandled critical extensions and unknown key usages. *)
Definition stripped (x y : go_cert) : Prop :=
  ct_subject y = ct_subject x /\ ct_issuer y = ct_issuer x /\ ct_critical y = [] /\ ct_usages y = [] /\
  ct_mldsa y = ct_mldsa x /\ ct_key y = ct_key x /\ ct_tbs y = ct_tbs x /\ ct_signature y = ct_signature x.
(** The key of [issuer] verifies the ML-DSA signature of [x]. *)
Definition mldsa_signed {Z} (L : libraries Z) (issuer x : go_cert) : Prop :=
  exists k, ct_key issuer = Some k /\ li_key L k = true /\ li_signed L k (ct_tbs x) (ct_signature x) = true.
(** The octets are a chain that both libraries parse; the linter has nothing to say; only
    the first certificate may be issued by its own subject.  With ML-DSA each certificate is
    signed by the one before, and the first by itself, unless it names another issuer.  With
    elliptic curves Go finds exactly one chain from the first certificate through the others,
    all of them stripped. *)
Definition acceptable {Z} (L : libraries Z) (data : bytes) : Prop :=
  exists root rest zs, li_parse L data = Some (root :: rest) /\ li_zparse L data = Some zs /\ (forall z, In z zs -> li_lints L z = 0%nat) /\
    (forall x, In x rest -> ct_subject x <> ct_issuer x) /\
    forall i x, nth_error (root :: rest) i = Some x ->
      (ct_mldsa x = true -> match i with
                            | O => ct_subject x <> ct_issuer x \/ mldsa_signed L x x
                            | S j => exists issuer, nth_error (root :: rest) j = Some issuer /\ mldsa_signed L issuer x
                            end) /\
      (ct_mldsa x = false -> forall root' rest' x', stripped root root' -> Forall2 stripped rest rest' -> stripped x x' -> li_verify L root' rest' x' = (true, 1%nat)).

Lemma stripped_bare x y : stripped x y <-> y = bare x.
Proof.
  split; [|intros ->; repeat split]. destruct x as [a1 a2 a3 a4 a5 a6 a7 a8], y as [b1 b2 b3 b4 b5 b6 b7 b8]. unfold stripped, bare. cbn [ct_subject ct_issuer ct_critical ct_usages ct_mldsa ct_key ct_tbs ct_signature].
  intros (-> & -> & -> & -> & -> & -> & -> & ->). reflexivity.
Qed.
Lemma stripped_all l m : Forall2 stripped l m <-> m = map bare l.
Proof.
  split.
  - intros H. induction H as [|x y l m H _ IH]; [reflexivity|]. cbn [map]. f_equal; [apply stripped_bare; exact H|exact IH].
  - intros ->. induction l as [|x l IH]; constructor; [apply stripped_bare; reflexivity|exact IH].
Qed.
Lemma acceptable_spec {Z} (L : libraries Z) data :
  (exists xs zs, li_parse L data = Some xs /\ li_zparse L data = Some zs /\ xs <> [] /\ (forall z, In z zs -> li_lints L z = 0%nat) /\
     (forall x, In x (tl xs) -> ct_subject x <> ct_issuer x) /\ forall i x, nth_error xs i = Some x -> accepted (li_key L) (li_signed L) (li_verify L) xs i x) <-> acceptable L data.
Proof.
  unfold acceptable, accepted. split.
  - intros (xs & zs & P & Q & NE & A & B & C). destruct xs as [|root rest]; [contradiction|]. exists root, rest, zs. repeat (split; [assumption|]).
    intros i x Hi. specialize (C i x Hi). split; intros M; rewrite M in C; [exact C|]. intros root' rest' x' S1 S2 S3.
    apply stripped_bare in S1. apply stripped_all in S2. apply stripped_bare in S3. subst. destruct C as (r & [= <-] & C). exact C.
  - intros (root & rest & zs & P & Q & A & B & C). exists (root :: rest), zs. repeat (split; [assumption|]). split; [discriminate|]. repeat (split; [assumption|]).
    intros i x Hi. destruct (C i x Hi) as [C1 C2]. destruct (ct_mldsa x); [apply C1; reflexivity|]. exists root. split; [reflexivity|].
    apply C2; first [reflexivity|apply stripped_bare; reflexivity|apply stripped_all; reflexivity].
Qed.

(** checkCertificateChain, for any octets: the device is not used, the check has nothing to
    say exactly if they are acceptable, and it panics only if Go parses them as no
    certificate at all. *)
Theorem C63_check :
  forall T Z (L : libraries Z) data (b : bench T),
    exists o cs, checked T L data b = (o, cs, b) /\ (cs = [] <-> acceptable L data) /\ (li_parse L data <> Some [] -> ~ In Crashed cs).
Proof.
  intros T Z L data b. destruct (check_spec T Z (li_parse L) (li_zparse L) (li_lints L) (li_key L) (li_signed L) (li_verify L) data b) as (o & cs & E & NC & H).
  exists o, cs. split; [exact E|]. split; [|exact NC]. rewrite H. apply acceptable_spec.
Qed.
Print Assumptions C63_check.

(** TestGetCertificateChain with the simulator, in any reachable state and any locality: it
    says of the platform's chain what checkCertificateChain says, and leaves the device as it
    was; but if the length of the chain is a multiple of 2048 it stops without a look at it. *)
Theorem C63_simulator :
  forall cf R (pr : primitives R) chain issuer serial ski c Z (L : libraries Z) w l i n,
    reference cf pr (backend_digest (prof cf)) chain issuer serial ski -> all_bytes chain -> made_for cf c -> reachable cf (w_st w) -> u32 l ->
    N.of_nat (length chain) / 2048 < N.of_nat n ->
    exists o cs, tested (the_device R) (sim_send cf R pr chain issuer serial ski) c L n (at_ w l i) = (o, cs, at_ w l i) /\
      (N.of_nat (length chain) mod 2048 <> 0 -> (cs = [] <-> acceptable L chain) /\ checked (the_device R) L chain (at_ w l i) = (o, cs, at_ w l i)) /\
      (N.of_nat (length chain) mod 2048 = 0 -> cs = [Stopped 24]).
Proof.
  intros cf R pr chain issuer serial ski c Z L w l i n RF HB MF Hr Ul Hn.
  destruct (rf_artifacts _ _ _ _ _ _ _ RF) as (HC & HI & _). assert (HI' : (length issuer <= 128)%nat) by lia.
  pose proof (rf_config _ _ _ _ _ _ _ RF) as Hcf. pose proof (rf_fuel _ _ _ _ _ _ _ RF) as HF.
  unfold test_chain. cbn [bn_locality bn_device at_]. destruct (N.eq_dec (N.of_nat (length chain) mod 2048) 0) as [M|M].
  - rewrite (C54_simulator_refuted cf R pr chain issuer serial ski c l w n Hcf HC HF HI' HB Hr Ul MF Hn M).
    exists None, [Stopped 24]. split; [reflexivity|]. split; [intros H; contradiction|reflexivity].
  - rewrite (C54_simulator_partial cf R pr chain issuer serial ski c l w n Hcf HC HF HI' HB Hr Ul MF Hn M).
    destruct (C63_check (the_device R) Z L chain (at_ w l i)) as (o & cs & E & H & _). exists o, cs.
    split; [exact E|]. split; [intros _; split; [exact H|exact E]|intros M'; contradiction].
Qed.
Print Assumptions C63_simulator.

(** The suite on its target: skipped without AutoInit or X.509, run otherwise. *)
Theorem C63_run :
  forall cf R (pr : primitives R) chain issuer serial ski sup k seed c Z (L : libraries Z) n,
    reference cf pr (backend_digest (prof cf)) chain issuer serial ski -> all_bytes chain -> suits cf k -> made_for cf c ->
    N.of_nat (length chain) / 2048 < N.of_nat n -> N.of_nat (length chain) mod 2048 <> 0 ->
    exists w, sim_start cf R pr chain issuer serial ski (power_on_args sup) seed = (Ok tt, w) /\
    forall i, exists o, run_test (the_device R) (sim_send cf R pr chain issuer serial ski) sup c L n (at_ w SimAutoInitLocality i) = (o, at_ w SimAutoInitLocality i) /\
      (gs_auto_init sup = false \/ gs_x509 sup = false -> o = Skipped) /\
      (gs_auto_init sup = true -> gs_x509 sup = true -> exists cs, o = Ran cs /\ (cs = [] <-> acceptable L chain)).
Proof.
  intros cf R pr chain issuer serial ski sup k seed c Z L n RF HB Su MF Hn HM.
  destruct (on_target cf R pr chain issuer serial ski RF sup k seed [] Su) as (w & c0 & E & _ & _ & Hr & _).
  exists w. split; [exact E|]. intros i. unfold run_chain. cbn [forallb].
  destruct (gs_auto_init sup); [|exists Skipped; split; [reflexivity|]; split; [reflexivity|discriminate]].
  destruct (gs_x509 sup); [|exists Skipped; split; [reflexivity|]; split; [reflexivity|discriminate]]. cbn [andb].
  destruct (C63_simulator cf R pr chain issuer serial ski c Z L w SimAutoInitLocality i n RF HB MF Hr ltac:(vm_compute; reflexivity) Hn) as (o & cs & X & H & _).
  rewrite X. exists (Ran cs). split; [reflexivity|]. split; [intros [D|D]; discriminate D|]. intros _ _. exists cs. split; [reflexivity|]. apply H. exact HM.
Qed.
Print Assumptions C63_run.

(** removeTcgDiceCriticalExtensions and removeTcgDiceExtendedKeyUsages look at the size of
    the map in place of that of the list, so the map stays empty: whatever unhandled critical
    extensions and unknown key usages the certificates have, the test says the same. *)
Theorem C63_extensions :
  forall T Z (L : libraries Z) parse' data (b : bench T),
    match li_parse L data, parse' data with
    | Some xs, Some ys => exists bs, Forall2 stripped xs bs /\ Forall2 stripped ys bs
    | None, None => True
    | _, _ => False
    end ->
    check_chain T Z parse' (li_zparse L) (li_lints L) (li_key L) (li_signed L) (li_verify L) data b = checked T L data b.
Proof.
  intros T Z L parse' data b H. apply check_bare. destruct (li_parse L data) as [xs|], (parse' data) as [ys|]; try contradiction; [|reflexivity].
  destruct H as (bs & H1 & H2). apply stripped_all in H1. apply stripped_all in H2. cbn [option_map]. congruence.
Qed.
Print Assumptions C63_extensions.

(** What the two functions are for, which does not hold: that a certificate with a critical
    extension or a key usage outside the lists of TCG DICE is reported.  A certificate with
    both passes, though the verifier refuses every certificate that has any. *)
Theorem C63_extensions_refuted :
  exists (L : libraries unit) data x,
    li_parse L data = Some [x] /\ (exists e, In e (ct_critical x) /\ ~ In e dice_critical) /\ (exists u, In u (ct_usages x) /\ ~ In u dice_usages) /\
    (forall root rest y, ct_critical y <> [] \/ ct_usages y <> [] -> fst (li_verify L root rest y) = false) /\
    forall T (b : bench T), checked T L data b = (Some tt, [], b).
Proof.
  exists {| li_parse := fun _ => Some [{| ct_subject := [1]; ct_issuer := [1]; ct_critical := [[1; 2; 3]]; ct_usages := [[4; 5; 6]];
                                          ct_mldsa := false; ct_key := None; ct_tbs := []; ct_signature := [] |}];
            li_zparse := fun _ => Some [tt]; li_lints := fun _ => 0%nat; li_key := fun _ => true; li_signed := fun _ _ _ => true;
            li_verify := fun _ _ y => (Nat.eqb (length (ct_critical y)) 0 && Nat.eqb (length (ct_usages y)) 0, 1%nat)%bool |}, [48].
  eexists. split; [reflexivity|]. cbn [li_verify fst ct_critical ct_usages].
  split; [exists [1; 2; 3]; split; [left; reflexivity|]; intros H; repeat destruct H as [H|H]; try discriminate H; exact H|].
  split; [exists [4; 5; 6]; split; [left; reflexivity|]; intros H; repeat destruct H as [H|H]; try discriminate H; exact H|].
  split; [|reflexivity]. intros _ _ y [H|H].
  - destruct (ct_critical y); [contradiction|reflexivity].
  - destruct (ct_usages y); [contradiction|]. apply andb_false_r.
Qed.
Print Assumptions C63_extensions_refuted.

(** Nor does a chain that passes contain only verified certificates: with ML-DSA a first
    certificate that names another issuer passes, whatever its signature. *)
Theorem C63_signature_refuted :
  exists (L : libraries unit) data x,
    li_parse L data = Some [x] /\ (forall k m g, li_signed L k m g = false) /\ (forall root rest y, li_verify L root rest y = (false, 0%nat)) /\
    forall T (b : bench T), checked T L data b = (Some tt, [], b).
Proof.
  exists {| li_parse := fun _ => Some [{| ct_subject := [1]; ct_issuer := [2]; ct_critical := []; ct_usages := [];
                                          ct_mldsa := true; ct_key := None; ct_tbs := []; ct_signature := [] |}];
            li_zparse := fun _ => Some [tt]; li_lints := fun _ => 0%nat; li_key := fun _ => true; li_signed := fun _ _ _ => false;
            li_verify := fun _ _ y => (false, 0%nat) |}, [48].
  eexists. split; [reflexivity|]. split; [reflexivity|]. split; [reflexivity|]. reflexivity.
Qed.
Print Assumptions C63_signature_refuted.

(** ** Cases *)
(** Two certificates with ML-DSA and one without; keys verify what ends with them. *)
Definition chain_cert (s i : N) (m : bool) (g : bytes) : go_cert :=
  {| ct_subject := [s]; ct_issuer := [i]; ct_critical := [[2; 23; 133; 5; 4; 5]]; ct_usages := []; ct_mldsa := m; ct_key := Some [s]; ct_tbs := [s; i]; ct_signature := g |}.
Definition chain_libraries (good : bool) (noise : nat) : libraries unit :=
  {| li_parse := fun d => if same_handle d ref_chain then Some [chain_cert 1 1 true [1]; chain_cert 2 1 true (if good then [1] else [2]); chain_cert 3 2 false []] else None;
     li_zparse := fun d => Some [tt; tt; tt]; li_lints := fun _ => noise; li_key := fun _ => true; li_signed := fun k _ g => same_handle k g;
     li_verify := fun root rest y => (Nat.eqb (length rest) 2 && Nat.eqb (length (ct_critical y)) 0, 1%nat)%bool |}.
Notation said good noise data := (match checked unit (chain_libraries good noise) data {| bn_device := tt; bn_locality := 0; bn_initialized := false |} with (_, cs, _) => cs end).

(** The simulator that was just switched on meets the hypotheses; the test passes; it notices
    a wrong signature; it stops at the first certificate the linter complains of; it stops if
    the chain cannot be parsed. *)
Example C63_case :
  reference toy_cf toy_pr (backend_digest (prof toy_cf)) ref_chain [48; 0] [1; 2] (repeat 7 20) /\ all_bytes ref_chain /\ suits toy_cf Full256 /\ made_for toy_cf toy_go /\
  N.of_nat (length ref_chain) / 2048 < 1 /\ N.of_nat (length ref_chain) mod 2048 <> 0 /\ acceptable (chain_libraries true 0) ref_chain /\
  said true 0%nat ref_chain = [] /\ said false 0%nat ref_chain = [Failed 165] /\ said true 2%nat ref_chain = [Failed 98; Failed 98; Stopped 109] /\ said true 0%nat [1] = [Stopped 39].
Proof.
  split; [exact toy_reference|]. split; [repeat constructor|]. split; [exact toy_suits|]. split; [split; [exact toy_suits|split; reflexivity]|].
  split; [reflexivity|]. split; [discriminate|]. split; [|repeat split].
  destruct (C63_check unit unit (chain_libraries true 0) ref_chain {| bn_device := tt; bn_locality := 0; bn_initialized := false |}) as (o & cs & E & H & _).
  apply H. assert (X : snd (fst (checked unit (chain_libraries true 0) ref_chain {| bn_device := tt; bn_locality := 0; bn_initialized := false |})) = []) by (vm_compute; reflexivity).
  rewrite E in X. exact X.
Qed.
