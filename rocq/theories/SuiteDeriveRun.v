(** SuiteDeriveRun.v -- the targets of single tests: proofs. *)
From Verif Require Import Base Errors Types StateOps Env Wire Instance Commands RespBuf Response X509 X509Cert RustCrypto DefaultPlatform Simulator GoClient Suite ClientSpec
  Lib Spec Exec Effects Forest History WireSpec Contract Codec Steps Reach CommandSpecs Responses Execute Walk Measure Reasons Explain Avail X509Spec X509Cmd X509Facts
  X509Fit X509Fail X509Sane PlatformProofs RustProofs Trace TraceCmds TraceRust RefFaults Props_Commands Props_Avail Props_Reference Props_Size Props_Fail Props_Calls
  Props_Handles Props_Tree Props_Harness SimulatorProofs Props_Simulator ClientProofs ClientChain Props_Client SuiteProofs SuiteCases Denials SuiteNegative SuiteInit SuiteRun
  SuiteDerive SuiteDeriveLive SuiteDeriveState SuiteFollow SuiteDeriveCases SuiteDeriveTests.
Local Open Scope N_scope.

(** A device that initialised itself has its default context and nothing else. *)
Lemma lone_auto cf a fl l t1 t2 t3 s : auto_initialised cf a fl l t1 t2 t3 s -> exists x, lone s l 0 x /\ c_recursive x = true /\ c_export x = true /\ c_x509 x = true.
Proof.
  intros (_ & _ & _ & _ & H0 & Hrest). match type of H0 with at_slot _ _ ?x => exists x end. split; [split; [|repeat split]|repeat split].
  constructor.
  - cbn. constructor; [intros []|constructor].
  - intros i x [[= <- <-]|[]]. split; [exact H0|discriminate].
  - intros i x Hx Lx. destruct (Nat.eq_dec i 0) as [->|Ni]; [unfold at_slot in *; left; congruence|]. destruct Lx. exact (Hrest i x Ni Hx).
Qed.

Section Target.
  Variable cf : config.
  Variable R : Type.
  Variable pr : primitives R.
  Variables chain issuer serial ski : bytes.
  Hypothesis RF : reference cf pr (backend_digest (prof cf)) chain issuer serial ski.
  Notation send := (sim_send cf R pr chain issuer serial ski).
  Notation device := (option (world (rust_c R) unit)).

  Lemma on_single sup k seed x : suits cf k ->
    exists w c, sim_start cf R pr chain issuer serial ski (power_on_args sup) seed = (Ok tt, w) /\ made_for cf c /\
      run_single device send sup x (Some w) = Some (run_case device send sup c x (at_ w SimAutoInitLocality false)) /\
      reachable cf (w_st w) /\ (forall i, supports (w_st w) i <-> asked (power_on_args sup) i = true) /\
      (gs_auto_init sup = true -> exists x, lone (w_st w) SimAutoInitLocality 0 x /\ c_recursive x = true).
  Proof.
    intros Su. pose proof (rf_config _ _ _ _ _ _ _ RF) as Hcf.
    destruct (on_target cf R pr chain issuer serial ski RF sup k seed [] Su) as (w & _ & E & _ & _ & Hr & Hs & S & X).
    assert (Hk : kind_for (own_profile cf) = Some k) by (rewrite <- (su_profile _ _ Su); destruct k; reflexivity).
    pose proof (su_profile _ _ Su) as Hp.
    assert (HC : chain_fits chain) by (apply RF). assert (HF := rf_fuel _ _ _ _ _ _ _ RF). assert (HI := Hissuer cf R pr chain issuer serial ski RF).
    exists w. eexists. split; [exact E|]. split.
    2:{ split; [|split; [exact Hr|]; split; [exact Hs|]].
        - unfold run_single. rewrite (profile_told cf Hcf R pr chain issuer serial ski HC HF HI) by (assumption || reflexivity). rewrite Hk.
          rewrite (new_told cf Hcf R pr chain issuer serial ski HC HF HI) by (assumption || reflexivity). rewrite (proj2 (N.eqb_eq _ _) Hp). reflexivity.
        - intros A. rewrite A in X. destruct X as (fl & X). apply lone_auto in X as (y & L & C & _). eauto. }
    split; [exact Su|]. split; reflexivity.
  Qed.

  Lemma fine_out c harm (m : test device unit) b Q : fine device send c harm m b Q ->
    exists r cs b', m b = (r, cs, b') /\ ((r = Some tt /\ cs = [] /\ Q tt b') \/ mishap device send c harm b b').
  Proof.
    unfold fine. destruct (m b) as [[r cs] b1]. intros [(a & -> & -> & H)|H]; do 3 eexists; (split; [reflexivity|]); [left; destruct a; auto|right; exact H].
  Qed.
End Target.
