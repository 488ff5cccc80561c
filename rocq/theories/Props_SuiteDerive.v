(** Props_SuiteDerive.v -- the tests of DeriveContext of the verification suite
    (verification/testing/deriveContext.go, sign.go, simulator.go): when they pass, what they
    leave behind, and the one that can never pass.  Property C60. *)
From Verif Require Import Base Errors Types StateOps Env Wire Instance Commands RespBuf Response X509 X509Cert RustCrypto DefaultPlatform Simulator GoClient Suite ClientSpec
  Lib Spec Exec Effects Forest History WireSpec Contract Codec Steps Reach CommandSpecs Responses Execute Walk Measure Reasons Explain Avail X509Spec X509Cmd X509Facts
  X509Fit X509Fail X509Sane PlatformProofs RustProofs Trace TraceCmds TraceRust RefFaults Toy Ledger Props_Commands Props_Avail Props_Reference Props_Size Props_Fail Props_Calls
  Props_Handles Props_Tree Props_Harness SimulatorProofs Props_Simulator ClientProofs ClientChain Props_Client SuiteProofs SuiteCases Denials SuiteNegative SuiteInit SuiteRun Props_Suite
  SuiteDerive SuiteDeriveLive SuiteDeriveState SuiteFollow SuiteDeriveCases SuiteDeriveTests SuiteDeriveRun.
Local Open Scope N_scope.

(** Between two moments of a test a call found no usable handle in eight draws, or answered
    a DeriveContext with the same new handle twice. *)
Notation unlucky cf R pr chain issuer serial ski c b b' :=
  (mishap (the_device R) (sim_send cf R pr chain issuer serial ski) c (unlucky_call cf R pr chain issuer serial ski c) b b').
(** What these tests start from: one context, active, the default one of its locality. *)
Definition only_default (s : state) (l : N) (p : nat) : Prop :=
  names s (repeat 0 16) l p /\ (forall x, at_slot s p x -> c_parent x = ROOT) /\ forall i x, at_slot s i x -> live x -> i = p.
Lemma only_lone s l p : only_default s l p -> exists x, at_slot s p x /\ lone s l p x.
Proof.
  intros ((x & H & A & B & C) & P & U). exists x. split; [exact H|]. split; [|auto 6].
  constructor.
  - cbn. constructor; [intros []|constructor].
  - intros i y [[= <- <-]|[]]. split; [exact H|unfold live; congruence].
  - intros i y Hy Ly. left. assert (i = p) by eauto. subst i. unfold at_slot in *. congruence.
Qed.

(** TestDeriveContext: it passes.  The default context is lost: it is retired, an active
    context with another handle is left, and no default
    handle is left in any locality. *)
Theorem C60_derive :
  forall cf R (pr : primitives R) chain issuer serial ski sup c w l i p,
    reference cf pr (backend_digest (prof cf)) chain issuer serial ski -> made_for cf c -> reachable cf (w_st w) -> u32 l ->
    only_default (w_st w) l p -> (4 <= max_handles cf)%nat -> supports (w_st w) RETAIN_PARENT_CONTEXT ->
    exists r cs b', test_derive (the_device R) (sim_send cf R pr chain issuer serial ski) sup c (at_ w l i) = (r, cs, b') /\
      ((r = Some tt /\ cs = [] /\ exists w', b' = at_ w' l i /\ reachable cf (w_st w') /\ same_globals (w_st w) (w_st w') /\ 
          ((exists x', at_slot (w_st w') p x' /\ c_state x' = Retired) /\
           (exists q y, at_slot (w_st w') q y /\ c_state y = Active /\ c_locality y = l /\ c_handle y <> repeat 0 16) /\
           forall l' j, ~ names (w_st w') (repeat 0 16) l' j)) \/
       unlucky cf R pr chain issuer serial ski c (at_ w l i) b').
Proof.
  intros cf R pr chain issuer serial ski sup c w l i p RF MF Hr Ul O M S1. apply only_lone in O as (x & Hx & O).
  pose proof (derive_fine cf R pr chain issuer serial ski RF sup c MF w l i p x Hr Ul O M S1) as F.
  apply fine_out in F as (r & cs & b' & E & F). exists r, cs, b'. split; [exact E|].
  destruct F as [(-> & -> & w' & -> & Hr' & Q)|F]; [left|right; exact F]. split; [reflexivity|]. split; [reflexivity|]. exists w'. split; [reflexivity|]. split; [exact Hr'|].
  destruct Q as (G & (x' & X1 & X2 & _) & Q). split; [exact G|]. split; [eauto|exact Q].
Qed.
Print Assumptions C60_derive.

(** TestDeriveContextDisallowedChildCdiExport: likewise. *)
Theorem C60_disallowed_export :
  forall cf R (pr : primitives R) chain issuer serial ski sup c w l i p,
    reference cf pr (backend_digest (prof cf)) chain issuer serial ski -> made_for cf c -> reachable cf (w_st w) -> u32 l ->
    only_default (w_st w) l p -> (2 <= max_handles cf)%nat ->
    exists r cs b', test_disallowed_export (the_device R) (sim_send cf R pr chain issuer serial ski) sup c (at_ w l i) = (r, cs, b') /\
      ((r = Some tt /\ cs = [] /\ exists w', b' = at_ w' l i /\ reachable cf (w_st w') /\ same_globals (w_st w) (w_st w') /\ 
          ((exists x', at_slot (w_st w') p x' /\ c_state x' = Retired) /\
           (exists q y, at_slot (w_st w') q y /\ c_state y = Active /\ c_locality y = l /\ c_handle y <> repeat 0 16) /\
           forall l' j, ~ names (w_st w') (repeat 0 16) l' j)) \/
       unlucky cf R pr chain issuer serial ski c (at_ w l i) b').
Proof.
  intros cf R pr chain issuer serial ski sup c w l i p RF MF Hr Ul O M. apply only_lone in O as (x & Hx & O).
  pose proof (disallowed_fine cf R pr chain issuer serial ski RF sup c MF w l i p x Hr Ul O M) as F.
  apply fine_out in F as (r & cs & b' & E & F). exists r, cs, b'. split; [exact E|].
  destruct F as [(-> & -> & w' & -> & Hr' & Q)|F]; [left|right; exact F]. split; [reflexivity|]. split; [reflexivity|]. exists w'. split; [reflexivity|]. split; [exact Hr'|].
  destruct Q as (G & (x' & X1 & X2 & _) & Q). split; [exact G|]. split; [eauto|exact Q].
Qed.
Print Assumptions C60_disallowed_export.

(** TestPrivilegesEscalation: likewise. *)
Theorem C60_privileges :
  forall cf R (pr : primitives R) chain issuer serial ski sup c w l i p,
    reference cf pr (backend_digest (prof cf)) chain issuer serial ski -> made_for cf c -> reachable cf (w_st w) -> u32 l ->
    only_default (w_st w) l p -> (3 <= max_handles cf)%nat -> supports (w_st w) X509 ->
    exists r cs b', test_privileges (the_device R) (sim_send cf R pr chain issuer serial ski) sup c (at_ w l i) = (r, cs, b') /\
      ((r = Some tt /\ cs = [] /\ exists w', b' = at_ w' l i /\ reachable cf (w_st w') /\ same_globals (w_st w) (w_st w') /\ 
          ((exists x', at_slot (w_st w') p x' /\ c_state x' = Retired) /\
           (exists q y, at_slot (w_st w') q y /\ c_state y = Active /\ c_locality y = l /\ c_handle y <> repeat 0 16) /\
           forall l' j, ~ names (w_st w') (repeat 0 16) l' j)) \/
       unlucky cf R pr chain issuer serial ski c (at_ w l i) b').
Proof.
  intros cf R pr chain issuer serial ski sup c w l i p RF MF Hr Ul O M S1. apply only_lone in O as (x & Hx & O).
  pose proof (privileges_fine cf R pr chain issuer serial ski RF sup c MF w l i p x Hr Ul O M S1) as F.
  apply fine_out in F as (r & cs & b' & E & F). exists r, cs, b'. split; [exact E|].
  destruct F as [(-> & -> & w' & -> & Hr' & Q)|F]; [left|right; exact F]. split; [reflexivity|]. split; [reflexivity|]. exists w'. split; [reflexivity|]. split; [exact Hr'|].
  destruct Q as (G & (x' & X1 & X2 & _) & Q). split; [exact G|]. split; [eauto|exact Q].
Qed.
Print Assumptions C60_privileges.

(** TestChangeLocality: it passes, and no context is left on the device. *)
Theorem C60_change_locality :
  forall cf R (pr : primitives R) chain issuer serial ski sup c w l i p,
    reference cf pr (backend_digest (prof cf)) chain issuer serial ski -> made_for cf c -> reachable cf (w_st w) -> u32 l ->
    only_default (w_st w) l p -> (3 <= max_handles cf)%nat ->
    exists r cs b', test_change_locality (the_device R) (sim_send cf R pr chain issuer serial ski) sup c (at_ w l i) = (r, cs, b') /\
      ((r = Some tt /\ cs = [] /\ exists w', b' = at_ w' l i /\ reachable cf (w_st w') /\ same_globals (w_st w) (w_st w') /\ 
          (forall j y, at_slot (w_st w') j y -> c_state y = Inactive)) \/
       unlucky cf R pr chain issuer serial ski c (at_ w l i) b').
Proof.
  intros cf R pr chain issuer serial ski sup c w l i p RF MF Hr Ul O M. apply only_lone in O as (x & Hx & O).
  pose proof (change_locality_fine cf R pr chain issuer serial ski RF sup c MF w l i p x Hr Ul O M) as F.
  apply fine_out in F as (r & cs & b' & E & F). exists r, cs, b'. split; [exact E|].
  destruct F as [(-> & -> & w' & -> & Hr' & Q)|F]; [left|right; exact F]. split; [reflexivity|]. split; [reflexivity|]. exists w'. split; [reflexivity|]. split; [exact Hr'|].
  destruct Q as (G & Q). split; [exact G|]. intros j y Hy. destruct (c_state y) eqn:Y; [reflexivity| |]; destruct (ho_all _ _ Q j y Hy); unfold live; congruence.
Qed.
Print Assumptions C60_change_locality.

(** TestInternalInputFlags on a device with both features: likewise. *)
Theorem C60_internal_flags :
  forall cf R (pr : primitives R) chain issuer serial ski sup c w l i p,
    reference cf pr (backend_digest (prof cf)) chain issuer serial ski -> made_for cf c -> reachable cf (w_st w) -> u32 l ->
    only_default (w_st w) l p -> (3 <= max_handles cf)%nat -> gs_internal_dice sup = true -> gs_internal_info sup = true ->
    supports (w_st w) INTERNAL_DICE -> supports (w_st w) INTERNAL_INFO ->
    exists r cs b', test_internal_flags (the_device R) (sim_send cf R pr chain issuer serial ski) sup c (at_ w l i) = (r, cs, b') /\
      ((r = Some tt /\ cs = [] /\ exists w', b' = at_ w' l i /\ reachable cf (w_st w') /\ same_globals (w_st w) (w_st w') /\ 
          (forall j y, at_slot (w_st w') j y -> c_state y = Inactive)) \/
       unlucky cf R pr chain issuer serial ski c (at_ w l i) b').
Proof.
  intros cf R pr chain issuer serial ski sup c w l i p RF MF Hr Ul O M S1 S2 S3 S4. apply only_lone in O as (x & Hx & O).
  pose proof (internal_flags_fine cf R pr chain issuer serial ski RF sup c MF w l i p x Hr Ul O M S1 S2 S3 S4) as F.
  apply fine_out in F as (r & cs & b' & E & F). exists r, cs, b'. split; [exact E|].
  destruct F as [(-> & -> & w' & -> & Hr' & Q)|F]; [left|right; exact F]. split; [reflexivity|]. split; [reflexivity|]. exists w'. split; [reflexivity|]. split; [exact Hr'|].
  destruct Q as (G & Q). split; [exact G|]. intros j y Hy. destruct (c_state y) eqn:Y; [reflexivity| |]; destruct (ho_all _ _ Q j y Hy); unfold live; congruence.
Qed.
Print Assumptions C60_internal_flags.

(** TestDeriveContextInputTypeUniqueness: it passes and leaves every context as it was. *)
Theorem C60_type_uniqueness :
  forall cf R (pr : primitives R) chain issuer serial ski sup c w l i p,
    reference cf pr (backend_digest (prof cf)) chain issuer serial ski -> made_for cf c -> reachable cf (w_st w) -> u32 l ->
    only_default (w_st w) l p -> (4 <= max_handles cf)%nat ->
    supports (w_st w) RETAIN_PARENT_CONTEXT -> supports (w_st w) ROTATE_CONTEXT ->
    exists r cs b', test_type_uniqueness (the_device R) (sim_send cf R pr chain issuer serial ski) sup c (at_ w l i) = (r, cs, b') /\
      ((r = Some tt /\ cs = [] /\ exists w', b' = at_ w' l i /\ reachable cf (w_st w') /\ 
          undisturbed (w_st w) (w_st w')) \/
       unlucky cf R pr chain issuer serial ski c (at_ w l i) b').
Proof.
  intros cf R pr chain issuer serial ski sup c w l i p RF MF Hr Ul O M S1 S2. apply only_lone in O as (x & Hx & O).
  pose proof (type_uniqueness_fine cf R pr chain issuer serial ski RF sup c MF w l i p x Hr Ul O M S1 S2) as F.
  apply fine_out in F as (r & cs & b' & E & F). exists r, cs, b'. split; [exact E|].
  destruct F as [(-> & -> & w' & -> & Hr' & Q)|F]; [left|right; exact F]. split; [reflexivity|]. split; [reflexivity|]. exists w'. split; [reflexivity|]. split; [exact Hr'|].
  exact Q.
Qed.
Print Assumptions C60_type_uniqueness.

(** TestDeriveContextAllowRecursive, if the default context allows it: likewise. *)
Theorem C60_allow_recursive :
  forall cf R (pr : primitives R) chain issuer serial ski sup c w l i p,
    reference cf pr (backend_digest (prof cf)) chain issuer serial ski -> made_for cf c -> reachable cf (w_st w) -> u32 l ->
    only_default (w_st w) l p -> (4 <= max_handles cf)%nat -> (forall x, at_slot (w_st w) p x -> c_recursive x = true) ->
    supports (w_st w) RETAIN_PARENT_CONTEXT -> supports (w_st w) ROTATE_CONTEXT -> supports (w_st w) RECURSIVE ->
    exists r cs b', test_allow_recursive (the_device R) (sim_send cf R pr chain issuer serial ski) sup c (at_ w l i) = (r, cs, b') /\
      ((r = Some tt /\ cs = [] /\ exists w', b' = at_ w' l i /\ reachable cf (w_st w') /\ 
          undisturbed (w_st w) (w_st w')) \/
       unlucky cf R pr chain issuer serial ski c (at_ w l i) b').
Proof.
  intros cf R pr chain issuer serial ski sup c w l i p RF MF Hr Ul O M S0 S1 S2 S3. apply only_lone in O as (x & Hx & O).
  pose proof (allow_recursive_fine cf R pr chain issuer serial ski RF sup c MF w l i p x Hr Ul O M (S0 x Hx) S1 S2 S3) as F.
  apply fine_out in F as (r & cs & b' & E & F). exists r, cs, b'. split; [exact E|].
  destruct F as [(-> & -> & w' & -> & Hr' & Q)|F]; [left|right; exact F]. split; [reflexivity|]. split; [reflexivity|]. exists w'. split; [reflexivity|]. split; [exact Hr'|].
  exact Q.
Qed.
Print Assumptions C60_allow_recursive.

(** TestSignSimulation, from any state: it stops if no simulation context can be made, and
    otherwise passes and leaves every context as it was. *)
Theorem C60_sign_simulation :
  forall cf R (pr : primitives R) chain issuer serial ski sup c w l i,
    reference cf pr (backend_digest (prof cf)) chain issuer serial ski -> made_for cf c -> reachable cf (w_st w) -> u32 l -> gs_simulation sup = true ->
    exists r cs w', test_sign_simulation (the_device R) (sim_send cf R pr chain issuer serial ski) sup c (at_ w l i) = (r, cs, at_ w' l i) /\ reachable cf (w_st w') /\
      ((cs = [Stopped 86] /\ w_st w' = w_st w /\
          (~ supports (w_st w) SIMULATION \/ Reasons.full (w_st w) \/ eight_draws cf pr (backend_digest (prof cf)) w w')) \/
       (cs = [] /\ supports (w_st w) SIMULATION /\ undisturbed (w_st w) (w_st w'))).
Proof. intros cf R pr chain issuer serial ski sup c w l i RF MF Hr Ul Gs. exact (sign_simulation_says cf R pr chain issuer serial ski RF sup c MF w l i Hr Ul Gs). Qed.
Print Assumptions C60_sign_simulation.

(** TestDeriveContextSimulation complains whatever the state, the locality and the features:
    it wants one request refused with an invalid argument and then, with nothing in
    between, granted. *)
Theorem C60_derive_simulation :
  forall cf R (pr : primitives R) chain issuer serial ski sup c w l i r cs b',
    reference cf pr (backend_digest (prof cf)) chain issuer serial ski -> made_for cf c -> reachable cf (w_st w) -> u32 l ->
    test_derive_simulation (the_device R) (sim_send cf R pr chain issuer serial ski) sup c (at_ w l i) = (r, cs, b') -> cs <> [].
Proof.
  intros cf R pr chain issuer serial ski sup c w l i r cs b' RF MF Hr Ul E. exact (derive_simulation_complains cf R pr chain issuer serial ski RF sup c MF w l i r cs b' Hr Ul E).
Qed.
Print Assumptions C60_derive_simulation.

(** The targets made for one test: a simulator switched on with their features passes it,
    unless a call is unlucky.  Only the test that cannot pass is never run: its target does
    not have the features that it needs. *)
Theorem C60_targets :
  forall cf R (pr : primitives R) chain issuer serial ski k seed x sup,
    reference cf pr (backend_digest (prof cf)) chain issuer serial ski -> suits cf k -> (4 <= max_handles cf)%nat -> single_target x = Some sup ->
    exists w c o b', sim_start cf R pr chain issuer serial ski (power_on_args sup) seed = (Ok tt, w) /\ made_for cf c /\
      run_single (the_device R) (sim_send cf R pr chain issuer serial ski) sup x (Some w) = Some (o, b') /\
      if match x with CaseDeriveSimulation => true | _ => false end
      then o = Skipped /\ b' = at_ w SimAutoInitLocality false
      else o = Ran [] \/ unlucky cf R pr chain issuer serial ski c (at_ w SimAutoInitLocality false) b'.
Proof.
  intros cf R pr chain issuer serial ski k seed x sup RF Su M ST.
  destruct (on_single cf R pr chain issuer serial ski RF sup k seed x Su) as (w & c & E & MF & ER & Hr & Hs & L).
  assert (HA : gs_auto_init sup = true) by (destruct x; inversion ST; reflexivity). destruct (L HA) as (y & Lo & Rx). clear L HA.
  exists w, c. rewrite ER. unfold run_case.
  destruct x; inversion ST; subst sup; cbn [derive_needs forallb gs_simulation gs_recursive gs_auto_init gs_rotate_context gs_x509 gs_csr gs_internal_info gs_internal_dice gs_retain_parent_context gs_cdi_export andb derive_program] in *;
    try (do 2 eexists; split; [exact E|]; split; [exact MF|]; split; [reflexivity|]; split; reflexivity);
  match goal with |- context [?m (at_ w SimAutoInitLocality false)] => lazymatch m with
    | test_derive _ _ ?s _ => pose proof (derive_fine cf R pr chain issuer serial ski RF s c MF w SimAutoInitLocality false 0%nat y Hr eq_refl Lo M ltac:(apply Hs; reflexivity)) as F
    | test_disallowed_export _ _ ?s _ => pose proof (disallowed_fine cf R pr chain issuer serial ski RF s c MF w SimAutoInitLocality false 0%nat y Hr eq_refl Lo ltac:(lia)) as F
    | test_change_locality _ _ ?s _ => pose proof (change_locality_fine cf R pr chain issuer serial ski RF s c MF w SimAutoInitLocality false 0%nat y Hr eq_refl Lo ltac:(lia)) as F
    | test_internal_flags _ _ ?s _ => pose proof (internal_flags_fine cf R pr chain issuer serial ski RF s c MF w SimAutoInitLocality false 0%nat y Hr eq_refl Lo ltac:(lia) eq_refl eq_refl ltac:(apply Hs; reflexivity) ltac:(apply Hs; reflexivity)) as F
    | test_privileges _ _ ?s _ => pose proof (privileges_fine cf R pr chain issuer serial ski RF s c MF w SimAutoInitLocality false 0%nat y Hr eq_refl Lo ltac:(lia) ltac:(apply Hs; reflexivity)) as F
    | test_type_uniqueness _ _ ?s _ => pose proof (type_uniqueness_fine cf R pr chain issuer serial ski RF s c MF w SimAutoInitLocality false 0%nat y Hr eq_refl Lo M ltac:(apply Hs; reflexivity) ltac:(apply Hs; reflexivity)) as F
    | test_allow_recursive _ _ ?s _ => pose proof (allow_recursive_fine cf R pr chain issuer serial ski RF s c MF w SimAutoInitLocality false 0%nat y Hr eq_refl Lo M Rx ltac:(apply Hs; reflexivity) ltac:(apply Hs; reflexivity) ltac:(apply Hs; reflexivity)) as F
    end end; apply fine_out in F as (r & cs & b' & EF & F); rewrite EF; exists (Ran cs), b'; (split; [exact E|]); (split; [exact MF|]); (split; [reflexivity|]);
    (destruct F as [(_ & -> & _)|F]; [left; reflexivity|right; exact F]).
Qed.
Print Assumptions C60_targets.

(** ** Cases *)
Definition tried_single (cf : config) (pr : primitives N) (x : derive_case) : option Suite.outcome :=
  match single_target x with
  | Some sup => option_map fst (run_single (the_device N) (sim_send cf N pr ref_chain [48; 0] [1; 2] (repeat 7 20)) sup x
      (Some (snd (sim_start cf N pr ref_chain [48; 0] [1; 2] (repeat 7 20) (power_on_args sup) 3))))
  | None => None
  end.
Definition single_tests : list derive_case :=
  [CaseDerive; CaseDisallowedExport; CaseChangeLocality; CaseInternalFlags; CasePrivileges; CaseTypeUniqueness; CaseAllowRecursive].
(** A generator that gives every value twice. *)
Definition twin_pr : primitives N :=
  {| pr_fill := fun n r => (repeat ((r / 2 + 1) mod 256) n, r + 1);
     pr_sha256 := pr_sha256 toy_pr; pr_sha384 := pr_sha384 toy_pr; pr_hkdf256 := pr_hkdf256 toy_pr; pr_hkdf384 := pr_hkdf384 toy_pr;
     pr_valid256 := pr_valid256 toy_pr; pr_valid384 := pr_valid384 toy_pr; pr_point256 := pr_point256 toy_pr; pr_point384 := pr_point384 toy_pr;
     pr_sign256 := pr_sign256 toy_pr; pr_sign384 := pr_sign384 toy_pr; pr_mldsa_public := pr_mldsa_public toy_pr;
     pr_mldsa_sign_mu := pr_mldsa_sign_mu toy_pr; pr_mldsa_sign := pr_mldsa_sign toy_pr;
     pr_alias256 := pr_alias256 toy_pr; pr_alias384 := pr_alias384 toy_pr; pr_alias_mldsa := pr_alias_mldsa toy_pr |}.
Definition go_everything : go_support :=
  {| gs_simulation := true; gs_recursive := true; gs_auto_init := true; gs_rotate_context := true; gs_x509 := true; gs_csr := true;
     gs_is_symmetric := false; gs_internal_info := true; gs_internal_dice := true; gs_retain_parent_context := true; gs_cdi_export := true; gs_critical := true |}.
Definition everything_on : world (rust_c N) unit := snd (sim_start toy_cf N toy_pr ref_chain [48; 0] [1; 2] (repeat 7 20) (power_on_args go_everything) 3).

(** The hypotheses about targets are met, with four contexts and no more; every test passes
    on its target.  A generator of zeros and one that repeats itself make tests complain:
    the exceptions are needed. *)
Example C60_targets_case :
  reference toy_cf toy_pr (backend_digest (prof toy_cf)) ref_chain [48; 0] [1; 2] (repeat 7 20) /\ suits toy_cf Full256 /\ max_handles toy_cf = 4%nat /\
  Forall (fun x => tried_single toy_cf toy_pr x = Some (Ran [])) single_tests /\
  tried_single toy_cf toy_pr CaseDeriveSimulation = Some Skipped /\
  map (tried_single toy_cf dead_pr) single_tests =
    map Some [Ran [Failed 63; Crashed]; Ran [Stopped 144]; Ran [Stopped 241]; Ran [Failed 276; Crashed]; Ran [Stopped 314]; Ran [Stopped 670]; Ran [Stopped 728]] /\
  tried_single toy_cf twin_pr CaseTypeUniqueness = Some (Ran [Failed 676]) /\
  tried_single toy_cf twin_pr CaseAllowRecursive = Some (Ran [Failed 767; Failed 734]).
Proof.
  split; [exact toy_reference|]. split; [exact toy_suits|]. split; [reflexivity|]. split; [repeat constructor; vm_compute; reflexivity|].
  repeat split; vm_compute; reflexivity.
Qed.

(** A device with every feature, just switched on, meets the hypotheses of the theorems
    about the tests.  There the test of derivation in simulation contexts runs, and is
    stopped where it wants the request granted. *)
Example C60_tests_case :
  reachable toy_cf (w_st everything_on) /\ only_default (w_st everything_on) 0 0 /\ (forall x, at_slot (w_st everything_on) 0 x -> c_recursive x = true) /\
  supports (w_st everything_on) RETAIN_PARENT_CONTEXT /\ supports (w_st everything_on) ROTATE_CONTEXT /\ supports (w_st everything_on) RECURSIVE /\
  supports (w_st everything_on) X509 /\ supports (w_st everything_on) INTERNAL_DICE /\ supports (w_st everything_on) INTERNAL_INFO /\ supports (w_st everything_on) SIMULATION /\
  option_map fst (run_single (the_device N) (sim_send toy_cf N toy_pr ref_chain [48; 0] [1; 2] (repeat 7 20)) go_everything CaseDeriveSimulation (Some everything_on)) =
    Some (Ran [Stopped 466]) /\
  option_map fst (run_single (the_device N) (sim_send toy_cf N toy_pr ref_chain [48; 0] [1; 2] (repeat 7 20)) go_everything CaseSignSimulation (Some everything_on)) =
    Some (Ran []).
Proof.
  destruct (on_single toy_cf N toy_pr ref_chain [48; 0] [1; 2] (repeat 7 20) toy_reference go_everything Full256 3 CaseDerive toy_suits) as (w & c & E & _ & _ & Hr & Hs & L).
  assert (Ew : everything_on = w) by (unfold everything_on; rewrite E; reflexivity). rewrite <- Ew in *. destruct (L eq_refl) as (x & (H & A1 & A2 & A3 & A4) & Rx).
  pose proof (ho_in _ _ H _ _ (or_introl eq_refl)) as [H0 _].
  split; [exact Hr|]. split.
  { split; [exists x; auto|]. split; [intros y Hy; unfold at_slot in *; congruence|]. intros i y Hy Ly. destruct (ho_all _ _ H _ _ Hy Ly) as [[= -> _]|[]]. reflexivity. }
  split; [intros y Hy; unfold at_slot in *; congruence|]. do 7 (split; [apply Hs; reflexivity|]). split; vm_compute; reflexivity.
Qed.
