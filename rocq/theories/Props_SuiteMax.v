(** Props_SuiteMax.v -- the test of the largest number of contexts of the verification suite
    (verification/testing/deriveContext.go, simulator.go).  Property C61. *)
From Verif Require Import Base Errors Types StateOps Env Wire Instance Commands RespBuf Response X509 X509Cert RustCrypto DefaultPlatform Simulator GoClient Suite ClientSpec
  Lib Spec Exec Effects Forest History WireSpec Contract Codec Steps Reach CommandSpecs Responses Execute Walk Measure Reasons Explain Avail X509Spec X509Cmd X509Facts
  X509Fit X509Fail X509Sane PlatformProofs RustProofs Trace TraceCmds TraceRust RefFaults Toy Ledger Props_Commands Props_Avail Props_Reference Props_Size Props_Fail Props_Calls
  Props_Handles Props_Tree Props_Harness SimulatorProofs Props_Simulator ClientProofs ClientChain Props_Client SuiteProofs SuiteCases Denials SuiteNegative SuiteInit SuiteRun Props_Suite
  SuiteDerive SuiteDeriveLive SuiteDeriveState SuiteFollow SuiteDeriveCases SuiteDeriveTests SuiteDeriveRun Props_SuiteDerive SuiteMax SuiteMaxProofs.
Local Open Scope N_scope.

(** While every context of the device was taken, the test had this certificate issued. *)
Definition issued_when_full cf R (pr : primitives R) chain issuer serial ski c (b b' : bench (the_device R)) (cert : bytes) : Prop :=
  exists w1 w2 l i h d x u v, later (the_device R) (sim_send cf R pr chain issuer serial ski) c b (at_ w1 l i) /\
    (forall j y, at_slot (w_st w1) j y -> c_state y <> Inactive) /\
    Suite.call (the_device R) (sim_send cf R pr chain issuer serial ski) c (GcCertify h d 0 0) (at_ w1 l i) = (Some (GoOk (VKey x u v cert)), [], at_ w2 l i) /\
    later (the_device R) (sim_send cf R pr chain issuer serial ski) c (at_ w2 l i) b'.

(** TestMaxTCIs, on a device with as many contexts as the suite expects and only the default
    one in use.  The test fills it, is given a certificate that lists all of them, and its
    only complaint can be that Go's parser refuses that certificate, or that the profile has
    elliptic curves and a key was derived from a scalar that is none.  No context is left. *)
Theorem C61_max_tcis :
  forall cf R (pr : primitives R) chain issuer serial ski sup c parses w l i p,
    reference cf pr (backend_digest (prof cf)) chain issuer serial ski -> made_for cf c -> reachable cf (w_st w) -> u32 l ->
    only_default (w_st w) l p -> (forall x, at_slot (w_st w) p x -> c_x509 x = true) -> supports (w_st w) X509 -> max_handles cf = 64%nat ->
    exists r cs b', test_max_tcis (the_device R) (sim_send cf R pr chain issuer serial ski) sup c parses (at_ w l i) = (r, cs, b') /\
      (((exists w', b' = at_ w' l i /\ reachable cf (w_st w') /\ same_globals (w_st w) (w_st w') /\ forall j y, at_slot (w_st w') j y -> c_state y = Inactive) /\
        ((exists cert, issued_when_full cf R pr chain issuer serial ski c (at_ w l i) b' cert /\
            if parses cert then r = Some tt /\ cs = [] else r = None /\ cs = [Stopped 378]) \/
         (r = None /\ cs = [Stopped 370] /\ prof cf <> Mldsa87 /\
          exists salt ikm info key, pr_kdf pr (profile_alg (prof cf)) salt ikm info = Some key /\ pr_usable pr (profile_alg (prof cf)) key = false))) \/
       unlucky cf R pr chain issuer serial ski c (at_ w l i) b').
Proof.
  intros cf R pr chain issuer serial ski sup c parses w l i p RF MF Hr Ul O AX SX M. apply only_lone in O as (x & Hx & O).
  pose proof (max_ends cf R pr chain issuer serial ski RF sup c MF parses w l i p x Hr Ul O (AX x Hx) SX M) as F. unfold ends in F.
  destruct (test_max_tcis _ _ _ _ _ _) as [[r cs] b']. exists r, cs, b'. split; [reflexivity|].
  destruct F as [((w' & -> & Hr' & G & Q) & F)|F]; [left|right; exact F]. split.
  - exists w'. split; [reflexivity|]. split; [exact Hr'|]. split; [exact G|].
    intros j y Hy. destruct (c_state y) eqn:Y; [reflexivity| |]; destruct (ho_all _ _ Q j y Hy); unfold live; congruence.
  - destruct F as [(cert & (w1 & w2 & l1 & i1 & h & y & u & v & L1 & FU & E & L2) & F)|F]; [left; exists cert|right; exact F].
    split; [|exact F]. do 9 eexists. split; [exact L1|]. split; [exact FU|]. split; [exact E|exact L2].
Qed.
Print Assumptions C61_max_tcis.

(** On a device with fewer contexts the test stops when they are used up; none is left. *)
Theorem C61_fewer :
  forall cf R (pr : primitives R) chain issuer serial ski sup c parses w l i p,
    reference cf pr (backend_digest (prof cf)) chain issuer serial ski -> made_for cf c -> reachable cf (w_st w) -> u32 l ->
    only_default (w_st w) l p -> (forall x, at_slot (w_st w) p x -> c_x509 x = true) -> supports (w_st w) X509 -> (max_handles cf < 64)%nat ->
    exists r cs b', test_max_tcis (the_device R) (sim_send cf R pr chain issuer serial ski) sup c parses (at_ w l i) = (r, cs, b') /\
      ((r = None /\ cs = [Stopped 359] /\
        exists w', b' = at_ w' l i /\ reachable cf (w_st w') /\ same_globals (w_st w) (w_st w') /\ forall j y, at_slot (w_st w') j y -> c_state y = Inactive) \/
       unlucky cf R pr chain issuer serial ski c (at_ w l i) b').
Proof.
  intros cf R pr chain issuer serial ski sup c parses w l i p RF MF Hr Ul O AX SX M. apply only_lone in O as (x & Hx & O).
  pose proof (few_ends cf R pr chain issuer serial ski RF sup c MF parses w l i p x Hr Ul O (AX x Hx) SX M) as F. unfold ends in F.
  destruct (test_max_tcis _ _ _ _ _ _) as [[r cs] b']. exists r, cs, b'. split; [reflexivity|].
  destruct F as [(-> & -> & w' & -> & Hr' & G & Q)|F]; [left|right; exact F]. split; [reflexivity|]. split; [reflexivity|].
  exists w'. split; [reflexivity|]. split; [exact Hr'|]. split; [exact G|].
  intros j y Hy. destruct (c_state y) eqn:Y; [reflexivity| |]; destruct (ho_all _ _ Q j y Hy); unfold live; congruence.
Qed.
Print Assumptions C61_fewer.

(** The target the simulator is started for: its number of contexts decides. *)
Theorem C61_target :
  forall cf R (pr : primitives R) chain issuer serial ski k seed parses,
    reference cf pr (backend_digest (prof cf)) chain issuer serial ski -> suits cf k ->
    exists w c o b', sim_start cf R pr chain issuer serial ski (power_on_args max_target) seed = (Ok tt, w) /\ made_for cf c /\
      run_max_target (the_device R) (sim_send cf R pr chain issuer serial ski) parses max_target (Some w) = Some (o, b') /\
      ((max_handles cf = 64%nat /\ exists cert, issued_when_full cf R pr chain issuer serial ski c (at_ w SimAutoInitLocality false) b' cert /\
          o = Ran (if parses cert then [] else [Stopped 378])) \/
       (max_handles cf = 64%nat /\ o = Ran [Stopped 370] /\ prof cf <> Mldsa87 /\
          exists salt ikm info key, pr_kdf pr (profile_alg (prof cf)) salt ikm info = Some key /\ pr_usable pr (profile_alg (prof cf)) key = false) \/
       ((max_handles cf < 64)%nat /\ o = Ran [Stopped 359]) \/
       unlucky cf R pr chain issuer serial ski c (at_ w SimAutoInitLocality false) b').
Proof.
  intros cf R pr chain issuer serial ski k seed parses RF Su. pose proof (proj1 (rf_config _ _ _ _ _ _ _ RF)) as M.
  destruct (on_max_target cf R pr chain issuer serial ski RF parses max_target k seed Su eq_refl) as (w & c & x & E & MF & ER & Hr & Hs & Lo & Ax).
  exists w, c. rewrite ER. unfold run_max. cbn [forallb max_target gs_auto_init gs_x509 andb].
  assert (SX : supports (w_st w) X509) by (apply Hs; reflexivity).
  destruct (Nat.eq_dec (max_handles cf) 64) as [M4|M4].
  - pose proof (max_ends cf R pr chain issuer serial ski RF max_target c MF parses w SimAutoInitLocality false 0%nat x Hr eq_refl Lo Ax SX M4) as F. unfold ends in F.
    destruct (test_max_tcis _ _ _ _ _ _) as [[r cs] b']. exists (Ran cs), b'. do 3 (split; [first [exact E|exact MF|reflexivity]|]).
    destruct F as [(_ & [(cert & (w1 & w2 & l1 & i1 & h & y & u & v & L1 & FU & E1 & L2) & F)|(_ & -> & F)])|F]; [left|right; left; auto|right; right; right; exact F].
    split; [exact M4|]. exists cert. split; [|destruct (parses cert); destruct F as [_ ->]; reflexivity].
    do 9 eexists. split; [exact L1|]. split; [exact FU|]. split; [exact E1|exact L2].
  - pose proof (few_ends cf R pr chain issuer serial ski RF max_target c MF parses w SimAutoInitLocality false 0%nat x Hr eq_refl Lo Ax SX ltac:(lia)) as F. unfold ends in F.
    destruct (test_max_tcis _ _ _ _ _ _) as [[r cs] b']. exists (Ran cs), b'. do 3 (split; [first [exact E|exact MF|reflexivity]|]).
    destruct F as [(_ & -> & _)|F]; [right; right; left; split; [lia|reflexivity]|right; right; right; exact F].
Qed.
Print Assumptions C61_target.

(** ** Cases *)
Definition tried_max (cf : config) (pr : primitives N) (sup : go_support) : option Suite.outcome :=
  option_map fst (run_max_target (the_device N) (sim_send cf N pr ref_chain [48; 0] [1; 2] (repeat 7 20)) (fun _ => true) sup
    (Some (snd (sim_start cf N pr ref_chain [48; 0] [1; 2] (repeat 7 20) (power_on_args sup) 3)))).
Definition full_on : world (rust_c N) unit := snd (sim_start full_cf N toy_pr ref_chain [48; 0] [1; 2] (repeat 7 20) (power_on_args max_target) 3).

(** A device with 64 contexts that was just switched on meets the hypotheses, and so does the
    target; a device with four stops the test where they are used up.  Without X.509
    certificates the test is skipped. *)
Example C61_case :
  reference full_cf toy_pr (backend_digest (prof full_cf)) ref_chain [48; 0] [1; 2] (repeat 7 20) /\ suits full_cf Full256 /\ max_handles full_cf = 64%nat /\
  reachable full_cf (w_st full_on) /\ only_default (w_st full_on) SimAutoInitLocality 0 /\ (forall x, at_slot (w_st full_on) 0 x -> c_x509 x = true) /\ supports (w_st full_on) X509 /\
  reference toy_cf toy_pr (backend_digest (prof toy_cf)) ref_chain [48; 0] [1; 2] (repeat 7 20) /\ suits toy_cf Full256 /\ (max_handles toy_cf < 64)%nat /\
  tried_max toy_cf toy_pr max_target = Some (Ran [Stopped 359]) /\ tried_max toy_cf toy_pr (go_rotating true false) = Some Skipped.
Proof.
  split; [exact full_reference|]. split; [exact full_suits|]. split; [reflexivity|].
  destruct (on_max_target full_cf N toy_pr ref_chain [48; 0] [1; 2] (repeat 7 20) full_reference (fun _ => true) max_target Full256 3 full_suits eq_refl) as (w & c & x & E & _ & _ & Hr & Hs & (H & A1 & A2 & A3 & A4) & Ax).
  assert (Ew : full_on = w) by (unfold full_on; rewrite E; reflexivity). rewrite <- Ew in *. pose proof (ho_in _ _ H _ _ (or_introl eq_refl)) as [H0 _].
  split; [exact Hr|]. split.
  { split; [exists x; auto|]. split; [intros y Hy; unfold at_slot in *; congruence|]. intros i y Hy Ly. destruct (ho_all _ _ H _ _ Hy Ly) as [[= -> _]|[]]. reflexivity. }
  split; [intros y Hy; unfold at_slot in *; congruence|]. split; [apply Hs; reflexivity|].
  split; [exact toy_reference|]. split; [exact toy_suits|]. split; [apply Nat.ltb_lt; reflexivity|]. split; vm_compute; reflexivity.
Qed.
