(** Props_Suite.v -- the verification suite (verification/testing): what its tests report
    about the simulator, when they pass, and what they leave behind.  Property C59. *)
From Verif Require Import Base Errors Types StateOps Env Wire Instance Commands RespBuf Response X509 X509Cert RustCrypto DefaultPlatform Simulator GoClient Suite ClientSpec
  Lib Spec Exec Effects Forest History WireSpec Contract Codec Steps Reach CommandSpecs Responses Execute Walk Measure Reasons Explain Avail X509Spec X509Cmd X509Facts
  X509Fit X509Fail X509Sane PlatformProofs RustProofs Trace TraceCmds TraceRust RefFaults Toy Ledger Props_Commands Props_Avail Props_Reference Props_Size Props_Fail Props_Calls
  Props_Handles Props_Tree Props_Harness SimulatorProofs Props_Simulator ClientProofs ClientChain Props_Client SuiteProofs SuiteCases Denials SuiteNegative SuiteInit SuiteRun.
Local Open Scope N_scope.

Notation the_device R := (option (world (rust_c R) unit)).

(** TestGetProfile: it complains about the number of contexts unless it is 64, about fewer
    than eight, and unless the reported features are the requested ones; in both
    localities.  It changes nothing but the locality. *)
Theorem C59_get_profile :
  forall cf R (pr : primitives R) chain issuer serial ski sup c w l i,
    reference cf pr (backend_digest (prof cf)) chain issuer serial ski -> made_for cf c -> reachable cf (w_st w) ->
    exists cs, test_get_profile (the_device R) (sim_send cf R pr chain issuer serial ski) sup c (at_ w l i) = (Some tt, cs, at_ w SimOtherLocality i) /\
      (In (Failed 36) cs <-> max_handles cf <> 64%nat) /\ (In (Failed 39) cs <-> (max_handles cf < 8)%nat) /\
      (In (Failed 42) cs <-> st_support (w_st w) <> to_flags sup) /\
      forall x, In x cs -> x = Failed 36 \/ x = Failed 39 \/ x = Failed 42.
Proof.
  intros cf R pr chain issuer serial ski sup c w l i RF MF Hr. eexists. split; [apply (get_profile_says cf R pr chain issuer serial ski RF sup c MF w l i Hr)|].
  assert (X : forall x, In x (profile_complaints cf sup (w_st w) ++ profile_complaints cf sup (w_st w)) <-> In x (profile_complaints cf sup (w_st w)))
    by (intros x; rewrite in_app_iff; tauto).
  split; [|split; [|split]]; try (intros x); rewrite X; unfold profile_complaints; rewrite !in_app_iff;
    destruct (Nat.eqb_spec (max_handles cf) 64) as [E1|E1]; destruct (Nat.ltb_spec (max_handles cf) 8) as [E2|E2];
    destruct (N.eqb_spec (st_support (w_st w)) (to_flags sup)) as [E3|E3]; cbn [In]; intuition (first [discriminate | lia | congruence | subst; tauto]).
Qed.
Print Assumptions C59_get_profile.

(** TestInitializeContext, when the suite knows whether there is a default context: it
    passes.  Without a default context it makes one, in the first locality, and leaves it
    there; with one nothing changes.  Only a device without a default context and without
    room fails. *)
Theorem C59_initialize :
  forall cf R (pr : primitives R) chain issuer serial ski sup c w l i,
    reference cf pr (backend_digest (prof cf)) chain issuer serial ski -> made_for cf c -> reachable cf (w_st w) ->
    st_init (w_st w) = (gs_auto_init sup || i)%bool ->
    exists r cs w' l' i', test_initialize (the_device R) (sim_send cf R pr chain issuer serial ski) sup c (at_ w l i) = (r, cs, at_ w' l' i') /\ reachable cf (w_st w') /\
      ((cs = [] /\ l' = SimOtherLocality /\
          ((st_init (w_st w) = true /\ w' = w /\ i' = i) \/
           (st_init (w_st w) = false /\ i' = true /\ exists j, first_slot (inactive_at (w_st w)) j /\
              w_st w' = put_ctx (set_init true (w_st w)) j (init_context cf Normal SimAutoInitLocality (repeat 0 16) true)))) \/
       (cs = [Stopped 35] /\ w_st w' = w_st w /\ st_init (w_st w) = false /\ forall j x, at_slot (w_st w) j x -> live x)).
Proof.
  intros cf R pr chain issuer serial ski sup c w l i RF MF Hr Ag.
  assert (D : st_init (w_st w) = true \/ (st_init (w_st w) = false /\ ((forall j x, at_slot (w_st w) j x -> live x) \/ ~ Reasons.full (w_st w)))).
  { destruct (st_init (w_st w)); [auto|]. right. split; [reflexivity|].
    destruct (forallb (fun x => negb (ctx_state_eqb (c_state x) Inactive)) (st_contexts (w_st w))) eqn:E.
    - left. rewrite forallb_forall in E. intros j x Hx I. apply nth_error_In in Hx. specialize (E x Hx). rewrite I in E. discriminate E.
    - right. intros F. assert (Y : forallb (fun x => negb (ctx_state_eqb (c_state x) Inactive)) (st_contexts (w_st w)) = true); [|congruence].
      apply forallb_forall. intros x Hx. apply In_nth_error in Hx as (j & Hj). specialize (F j x Hj). unfold live in F. destruct (c_state x); try reflexivity. contradiction. }
  assert (OK : (st_init (w_st w) = false -> ~ Reasons.full (w_st w)) -> exists w' i',
     test_initialize (the_device R) (sim_send cf R pr chain issuer serial ski) sup c (at_ w l i) = (Some tt, [], at_ w' SimOtherLocality i') /\ reachable cf (w_st w') /\
      ((st_init (w_st w) = true /\ w' = w /\ i' = i) \/
           (st_init (w_st w) = false /\ i' = true /\ exists j, first_slot (inactive_at (w_st w)) j /\
              w_st w' = put_ctx (set_init true (w_st w)) j (init_context cf Normal SimAutoInitLocality (repeat 0 16) true)))).
  { intros NF. destruct (initialize_says cf R pr chain issuer serial ski RF sup c MF w l i Hr Ag NF) as (i' & w' & E & R' & S & A & K).
    exists w', i'. split; [exact E|]. split; [exact R'|]. destruct S as [[Hi _]|(Hi & j & Fj & S)]; [left; destruct (K Hi); auto|right].
    split; [exact Hi|]. split; [|eauto]. unfold agrees in A. rewrite S in A. cbn in A. rewrite Hi in Ag. symmetry in Ag. apply orb_false_iff in Ag as [G _]. rewrite G in A. symmetry. exact A. }
  destruct D as [Hi|(Hi & [F|NF])].
  - destruct OK as (w' & i' & E & R' & X); [congruence|]. do 5 eexists. split; [exact E|]. split; [exact R'|]. left. auto.
  - destruct (initialize_full cf R pr chain issuer serial ski RF sup c MF w l i Hr Ag Hi F) as (w' & E & R' & S). do 5 eexists. split; [exact E|]. split; [exact R'|]. right. auto.
  - destruct OK as (w' & i' & E & R' & X); [auto|]. do 5 eexists. split; [exact E|]. split; [exact R'|]. left. auto.
Qed.
Print Assumptions C59_initialize.

(** TestInitializeSimulation on a device with its default context: it passes and every
    context there was is as before, or it stops because a simulation context cannot be
    made, for one of three reasons. *)
Theorem C59_initialize_simulation :
  forall cf R (pr : primitives R) chain issuer serial ski sup c w l i,
    reference cf pr (backend_digest (prof cf)) chain issuer serial ski -> made_for cf c -> reachable cf (w_st w) ->
    st_init (w_st w) = true -> (gs_auto_init sup || i = true)%bool -> gs_simulation sup = true ->
    exists r cs w' l', test_initialize_simulation (the_device R) (sim_send cf R pr chain issuer serial ski) sup c (at_ w l i) = (r, cs, at_ w' l' i) /\
      reachable cf (w_st w') /\ undisturbed (w_st w) (w_st w') /\
      ((cs = [] /\ l' = SimOtherLocality /\ supports (w_st w) SIMULATION) \/
       (cs = [Stopped 64] /\ exists w1, undisturbed (w_st w) (w_st w1) /\ w_st w' = w_st w1 /\
          (~ supports (w_st w) SIMULATION \/ Reasons.full (w_st w) \/ eight_draws cf pr (backend_digest (prof cf)) w1 w'))).
Proof.
  intros cf R pr chain issuer serial ski sup c w l i RF MF Hr Hi Hg Hs.
  destruct (initialize_simulation_says cf R pr chain issuer serial ski RF sup c MF w l i Hr) as (r & cs & w' & l' & E & R' & U & X);
    [unfold agrees; congruence|exact Hi|exact Hs|].
  do 4 eexists. split; [exact E|]. split; [exact R'|]. split; [exact U|].
  destruct X as [(_ & Q)|(_ & -> & w1 & U1 & S1 & X)]; [left; exact Q|right]. split; [reflexivity|]. exists w1. split; [exact U1|]. split; [exact S1|].
  destruct X as [X|[X|X]]; [left|right; left|auto].
  - destruct U1 as ((_ & _ & G & _) & _). unfold supports in *. rewrite <- G. exact X.
  - intros j y Hy I. destruct U1 as (_ & _ & P). destruct (P j y Hy) as (y' & Hy' & _ & Q). apply (Q ltac:(unfold live; tauto)). exact (X j y' Hy').
Qed.
Print Assumptions C59_initialize_simulation.

(** TestRotateContextHandle: it passes, and nothing has changed in the end, if the default
    context is the only one in the locality (eight unusable handles in a row apart).  If
    there is another one it fails, and the default context has lost its handle. *)
Theorem C59_rotate :
  forall cf R (pr : primitives R) chain issuer serial ski sup c w l i,
    reference cf pr (backend_digest (prof cf)) chain issuer serial ski -> made_for cf c -> reachable cf (w_st w) -> u32 l ->
    supports (w_st w) ROTATE_CONTEXT ->
    exists r cs w', test_rotate (the_device R) (sim_send cf R pr chain issuer serial ski) sup c (at_ w l i) = (r, cs, at_ w' l i) /\ reachable cf (w_st w') /\
      ((cs = [Stopped 20] /\ w_st w' = w_st w /\
          ((forall j, ~ names (w_st w) (repeat 0 16) l j) \/ eight_draws cf pr (backend_digest (prof cf)) w w')) \/
       (exists j x, first_slot (names (w_st w) (repeat 0 16) l) j /\ at_slot (w_st w) j x /\
          ((cs = [] /\ w_st w' = w_st w /\ (forall k y, at_slot (w_st w) k y -> c_state y = Active -> c_locality y = l -> k = j)) \/
           (cs = [Stopped 30] /\ (exists k y, at_slot (w_st w) k y /\ c_state y = Active /\ c_locality y = l /\ k <> j) /\
              exists h, h <> repeat 0 16 /\ w_st w' = put_ctx (w_st w) j (set_handle h x))))).
Proof.
  intros cf R pr chain issuer serial ski sup c w l i RF MF Hr Ul HS.
  destruct (named_or_not (w_st w) (repeat 0 16) l) as [(j0 & Hn0)|NN].
  - destruct (first_exists (names (w_st w) (repeat 0 16) l) ltac:(intros; apply names_dec) j0 Hn0) as (j & Hj).
    destruct (existsb (fun k => match nth_error (st_contexts (w_st w)) k with
                                | Some y => ctx_state_eqb (c_state y) Active && N.eqb (c_locality y) l && negb (Nat.eqb k j) | None => false end)%bool
                (seq 0 (length (st_contexts (w_st w))))) eqn:E.
    + apply existsb_exists in E as (k & _ & E). destruct (nth_error (st_contexts (w_st w)) k) as [y|] eqn:Hk; [|discriminate].
      apply andb_true_iff in E as [E E3]. apply andb_true_iff in E as [E1 E2]. apply ctx_state_eqb_eq in E1. apply N.eqb_eq in E2. apply negb_true_iff, Nat.eqb_neq in E3.
      destruct (rotate_not_alone cf R pr chain issuer serial ski RF sup c MF w l i j k y Hr Ul HS Hj Hk E1 E2 E3) as (cs & w' & E & R' & X).
      do 3 eexists. split; [exact E|]. split; [exact R'|]. destruct X as [(-> & S & X)|(-> & x & h & Hx & Nh & S)]; [left; auto|right].
      exists j, x. split; [exact Hj|]. split; [exact Hx|]. right. split; [reflexivity|]. split; [exists k, y; auto|]. exists h. auto.
    + assert (AL : SuiteCases.alone (w_st w) l j).
      { intros k y Hy Ay Ly. destruct (Nat.eq_dec k j) as [|Nk]; [assumption|exfalso].
        assert (X : existsb (fun k => match nth_error (st_contexts (w_st w)) k with
                                | Some y => ctx_state_eqb (c_state y) Active && N.eqb (c_locality y) l && negb (Nat.eqb k j) | None => false end)%bool
                (seq 0 (length (st_contexts (w_st w)))) = true); [|congruence].
        apply existsb_exists. exists k. split; [apply in_seq; apply at_lt in Hy; lia|]. unfold at_slot in Hy. rewrite Hy, Ay, Ly, N.eqb_refl.
        rewrite (proj2 (Nat.eqb_neq k j) Nk). reflexivity. }
      destruct (rotate_says cf R pr chain issuer serial ski RF sup c MF w l i j Hr Ul HS (proj1 Hj) AL) as (r & cs & w' & E' & S & R' & X).
      do 3 eexists. split; [exact E'|]. split; [exact R'|]. destruct X as [-> |(-> & X)]; [right|left; auto].
      destruct (proj1 Hj) as (x & Hx & _). exists j, x. split; [exact Hj|]. split; [exact Hx|]. left. auto.
  - destruct (refused_live cf R pr chain issuer serial ski RF c MF (GcRotate (repeat 0 16) 0) (repeat 0 16) w l i Hr Ul (conj (zeros_byte_string 16) eq_refl) eq_refl NN) as (e & E & _).
    exists None, [Stopped 20], w. split; [|split; [exact Hr|left; auto]].
    unfold test_rotate. rewrite (then_step _ _ _ DefaultContextHandle (at_ w l i)) by reflexivity. apply then_none.
    unfold must_handle. change DefaultContextHandle with (repeat 0 16). rewrite (then_step _ _ _ _ _ E). reflexivity.
Qed.
Print Assumptions C59_rotate.

(** TestRotateContextHandleSimulation: with another context in the locality it passes and
    every context is as before.  Without one the last step of the test succeeds where it
    should fail, and the simulation context stays behind, under the default handle.  When
    the rotation finds no handle the test panics. *)
Theorem C59_rotate_simulation :
  forall cf R (pr : primitives R) chain issuer serial ski sup c w l i,
    reference cf pr (backend_digest (prof cf)) chain issuer serial ski -> made_for cf c -> reachable cf (w_st w) -> u32 l ->
    gs_simulation sup = true -> supports (w_st w) ROTATE_CONTEXT ->
    exists r cs w', test_rotate_simulation (the_device R) (sim_send cf R pr chain issuer serial ski) sup c (at_ w l i) = (r, cs, at_ w' l i) /\ reachable cf (w_st w') /\
      ((cs = [Stopped 86] /\ w_st w' = w_st w /\
          (~ supports (w_st w) SIMULATION \/ Reasons.full (w_st w) \/ eight_draws cf pr (backend_digest (prof cf)) w w')) \/
       (exists w1 h idx old, at_slot (w_st w) idx old /\ c_state old = Inactive /\
          Suite.call (the_device R) (sim_send cf R pr chain issuer serial ski) c (GcInit InitIsSimulation) (at_ w l i) = (Some (GoOk (VHandle h)), [], at_ w1 l i) /\
          ((cs = [Stopped 58; Crashed] /\ w_st w' = put_ctx (w_st w) idx (init_context cf Simulation l h false) /\
              eight_draws cf pr (backend_digest (prof cf)) w1 w') \/
           (occupied (w_st w) l /\ cs = [] /\ undisturbed (w_st w) (w_st w')) \/
           (~ occupied (w_st w) l /\ cs = [Stopped 68] /\
              w_st w' = put_ctx (w_st w) idx (init_context cf Simulation l (repeat 0 16) false))))).
Proof.
  intros cf R pr chain issuer serial ski sup c w l i RF MF Hr Ul Hs HS.
  destruct (rotate_sim_says cf R pr chain issuer serial ski RF sup c MF w l i Hr Ul Hs HS) as (r & cs & w' & E & R' & X).
  do 3 eexists. split; [exact E|]. split; [exact R'|]. destruct X as [X|(w1 & h & idx & old & _ & _ & _ & O1 & O2 & Ei & X)]; [left; exact X|right].
  exists w1, h, idx, old. auto.
Qed.
Print Assumptions C59_rotate_simulation.

(** TestInvalidHandle: it passes and every context is as before, unless there is no
    simulation context to be had, or the device happens to draw the very handle that the
    suite takes for invalid. *)
Theorem C59_invalid_handle :
  forall cf R (pr : primitives R) chain issuer serial ski sup c w l i,
    reference cf pr (backend_digest (prof cf)) chain issuer serial ski -> made_for cf c -> reachable cf (w_st w) -> u32 l ->
    gs_simulation sup = true -> supports (w_st w) ROTATE_CONTEXT -> (forall j, ~ names (w_st w) SuiteInvalidHandle l j) ->
    exists r cs w', test_invalid_handle (the_device R) (sim_send cf R pr chain issuer serial ski) sup c (at_ w l i) = (r, cs, at_ w' l i) /\ reachable cf (w_st w') /\
      ((cs = [Stopped 86] /\ w_st w' = w_st w /\
          (~ supports (w_st w) SIMULATION \/ Reasons.full (w_st w) \/ eight_draws cf pr (backend_digest (prof cf)) w w')) \/
       (exists h w1, Suite.call (the_device R) (sim_send cf R pr chain issuer serial ski) c (GcInit InitIsSimulation) (at_ w l i) = (Some (GoOk (VHandle h)), [], at_ w1 l i) /\
          ((h <> SuiteInvalidHandle /\ cs = [] /\ undisturbed (w_st w) (w_st w')) \/
           (h = SuiteInvalidHandle /\ exists t cs', cs = Failed t :: cs' /\ (t = 31 \/ t = 33))))).
Proof. intros cf R pr chain issuer serial ski sup c w l i RF MF Hr Ul Hs HS NN. exact (invalid_says cf R pr chain issuer serial ski RF sup c MF w l i Hr Ul Hs HS NN). Qed.
Print Assumptions C59_invalid_handle.

(** TestWrongLocality: it passes, and changes nothing at all, exactly if the locality
    after the current one has no active context. *)
Theorem C59_wrong_locality :
  forall cf R (pr : primitives R) chain issuer serial ski c w l i,
    reference cf pr (backend_digest (prof cf)) chain issuer serial ski -> made_for cf c -> reachable cf (w_st w) ->
    supports (w_st w) ROTATE_CONTEXT ->
    exists cs w', test_wrong_locality (the_device R) (sim_send cf R pr chain issuer serial ski) c (at_ w l i) = (Some tt, cs, at_ w' l i) /\ reachable cf (w_st w') /\
      (cs = [] <-> forall j x, at_slot (w_st w) j x -> c_state x = Active -> c_locality x <> (l + 1) mod 2 ^ 32) /\
      (cs = [] -> w' = w).
Proof.
  intros cf R pr chain issuer serial ski c w l i RF MF Hr HS.
  destruct (existsb (fun y => ctx_state_eqb (c_state y) Active && N.eqb (c_locality y) (next l))%bool (st_contexts (w_st w))) eqn:E.
  - apply existsb_exists in E as (y & Hy & E). apply andb_true_iff in E as [E1 E2]. apply ctx_state_eqb_eq in E1. apply N.eqb_eq in E2. apply In_nth_error in Hy as (j & Hj).
    destruct (wrong_locality_fails cf R pr chain issuer serial ski RF c MF w l i Hr) as (t & cs & w' & E & _ & R'); [exists j, y; auto|].
    do 2 eexists. split; [exact E|]. split; [exact R'|]. split; [|discriminate]. split; [discriminate|]. intros X. destruct (X j y Hj E1 E2).
  - assert (NO : forall j x, at_slot (w_st w) j x -> c_state x = Active -> c_locality x <> next l).
    { intros j x Hx A L. assert (X : existsb (fun y => ctx_state_eqb (c_state y) Active && N.eqb (c_locality y) (next l))%bool (st_contexts (w_st w)) = true); [|congruence].
      apply existsb_exists. exists x. split; [eapply nth_error_In; exact Hx|]. rewrite A, L, N.eqb_refl. reflexivity. }
    exists [], w. rewrite (wrong_locality_passes cf R pr chain issuer serial ski RF c MF w l i Hr HS); [|intros (j & x & Hx & A & L); exact (NO j x Hx A L)].
    split; [reflexivity|]. split; [exact Hr|]. split; [|reflexivity]. split; [intros _; exact NO|reflexivity].
Qed.
Print Assumptions C59_wrong_locality.

(** TestUnsupportedCommand passes, and changes nothing, exactly if the device has no
    RotateContextHandle. *)
Theorem C59_unsupported_command :
  forall cf R (pr : primitives R) chain issuer serial ski c w l i,
    reference cf pr (backend_digest (prof cf)) chain issuer serial ski -> made_for cf c -> reachable cf (w_st w) -> u32 l ->
    exists cs w', test_unsupported_command (the_device R) (sim_send cf R pr chain issuer serial ski) c (at_ w l i) = (Some tt, cs, at_ w' l i) /\ reachable cf (w_st w') /\
      (cs = [] <-> ~ supports (w_st w) ROTATE_CONTEXT) /\ (cs = [] -> w' = w).
Proof.
  intros cf R pr chain issuer serial ski c w l i RF MF Hr Ul.
  destruct (N.testbit (st_support (w_st w)) ROTATE_CONTEXT) eqn:E.
  - destruct (unsupported_command_fails cf R pr chain issuer serial ski RF c MF w l i Hr Ul E) as (t & w' & X & _ & R').
    do 2 eexists. split; [exact X|]. split; [exact R'|]. split; [|discriminate]. split; [discriminate|]. intros Q. destruct (Q E).
  - assert (NS : ~ supports (w_st w) ROTATE_CONTEXT) by (unfold supports; congruence).
    exists [], w. rewrite (unsupported_command_passes cf R pr chain issuer serial ski RF c MF w l i Hr Ul NS). split; [reflexivity|]. split; [exact Hr|]. tauto.
Qed.
Print Assumptions C59_unsupported_command.

(** TestUnsupportedCommandFlag, where the caller has the default context: it passes, and
    changes nothing, exactly if the device has none of the five features. *)
Theorem C59_unsupported_flag :
  forall cf R (pr : primitives R) chain issuer serial ski c w l i j,
    reference cf pr (backend_digest (prof cf)) chain issuer serial ski -> made_for cf c -> reachable cf (w_st w) -> u32 l ->
    names (w_st w) (repeat 0 16) l j ->
    exists cs w', test_unsupported_flag (the_device R) (sim_send cf R pr chain issuer serial ski) c (at_ w l i) = (Some tt, cs, at_ w' l i) /\ reachable cf (w_st w') /\
      (cs = [] <-> forall f, In f [SIMULATION; CSR; X509; INTERNAL_INFO; INTERNAL_DICE] -> ~ supports (w_st w) f) /\ (cs = [] -> w' = w).
Proof.
  intros cf R pr chain issuer serial ski c w l i j RF MF Hr Ul Hn.
  destruct (unsupported_flag_means cf R pr chain issuer serial ski RF c MF w l i Hr Ul) as (cs & w' & E & R' & X).
  assert (FE : (forall f, In f [SIMULATION; CSR; X509; INTERNAL_INFO; INTERNAL_DICE] -> ~ supports (w_st w) f) <-> featureless (w_st w)).
  { unfold featureless. cbn [In]. split.
    - intros H. repeat split; apply H; tauto.
    - intros (H1 & H2 & H3 & H4 & H5) f [<-|[<-|[<-|[<-|[<-|[]]]]]]; assumption. }
  exists cs, w'. split; [exact E|]. split; [exact R'|]. rewrite FE.
  assert (Y : featureless (w_st w) -> cs = [] /\ w' = w).
  { intros F. rewrite (unsupported_flag_passes cf R pr chain issuer serial ski RF c MF w l i j Hr Ul Hn F) in E. injection E as <- <-. auto. }
  split; [split; [exact X|intros F; apply (Y F)]|]. intros Q. apply Y, X, Q.
Qed.
Print Assumptions C59_unsupported_flag.

(** ** Targets, from power-on *)

(** Any set of requested features: TestGetProfile alone passes exactly on a device with 64
    contexts, for which no symmetric keys were requested. *)
Theorem C59_target_profile :
  forall cf R (pr : primitives R) chain issuer serial ski sup k seed,
    reference cf pr (backend_digest (prof cf)) chain issuer serial ski -> suits cf k ->
    exists w cs, sim_start cf R pr chain issuer serial ski (power_on_args sup) seed = (Ok tt, w) /\
      run_target (the_device R) (sim_send cf R pr chain issuer serial ski) sup [CaseGetProfile] (Some w) =
        Some ([Ran cs], at_ w SimOtherLocality false) /\
      (cs = [] <-> max_handles cf = 64%nat /\ gs_is_symmetric sup = false).
Proof.
  intros cf R pr chain issuer serial ski sup k seed RF Su.
  destruct (on_target cf R pr chain issuer serial ski RF sup k seed [CaseGetProfile] Su) as (w & c & E & MF & ER & Hr & _ & S & _).
  exists w. eexists. split; [exact E|]. split.
  - rewrite ER. unfold run_cases. cbn [has_support_needed support_needed forallb case_program].
    rewrite (get_profile_says cf R pr chain issuer serial ski RF sup c MF w SimAutoInitLocality false Hr).
    assert (NC : forall l, existsb is_crash (profile_complaints cf sup l ++ profile_complaints cf sup l) = false).
    { intros l. rewrite existsb_app. unfold profile_complaints. destruct (Nat.eqb _ _), (Nat.ltb _ _), (N.eqb _ _); reflexivity. }
    rewrite NC. reflexivity.
  - destruct (C53_power_on cf R pr chain issuer serial ski sup seed 0 k) as (w2 & c2 & E2 & X2 & F2 & _); try first [apply RF|reflexivity|apply Su].
    { exact (Hissuer cf R pr chain issuer serial ski RF). }
    assert (w2 = w) by congruence. subst w2.
    rewrite (new_told cf (rf_config _ _ _ _ _ _ _ RF) R pr chain issuer serial ski) in X2;
      try first [apply RF|exact (Hissuer cf R pr chain issuer serial ski RF)|exact Hr|reflexivity].
    rewrite (proj2 (N.eqb_eq _ _) (su_profile _ _ Su)) in X2. injection X2 as <-. cbn [cl_flags] in F2.
    unfold profile_complaints. rewrite <- F2.
    destruct (Nat.eqb_spec (max_handles cf) 64) as [E1|E1]; destruct (Nat.ltb_spec (max_handles cf) 8) as [E3|E3];
      destruct (N.eqb_spec (st_support (w_st w)) (to_flags sup)) as [E4|E4]; cbn [app]; split; try discriminate; try tauto; intros [? ?]; try contradiction; lia.
Qed.
Print Assumptions C59_target_profile.

(** The target without any feature but what the list does not need: the profile, then a
    default context is made, in the first free slot, and stays. *)
Theorem C59_target_none :
  forall cf R (pr : primitives R) chain issuer serial ski sup k seed,
    reference cf pr (backend_digest (prof cf)) chain issuer serial ski -> suits cf k ->
    max_handles cf = 64%nat -> gs_is_symmetric sup = false -> gs_auto_init sup = false ->
    exists w w', sim_start cf R pr chain issuer serial ski (power_on_args sup) seed = (Ok tt, w) /\
      run_target (the_device R) (sim_send cf R pr chain issuer serial ski) sup [CaseGetProfile; CaseInitialize] (Some w) =
        Some ([Ran []; Ran []], at_ w' SimOtherLocality true) /\ reachable cf (w_st w') /\
      w_st w' = put_ctx (set_init true (w_st w)) 0 (init_context cf Normal SimAutoInitLocality (repeat 0 16) true).
Proof.
  intros cf R pr chain issuer serial ski sup k seed RF Su HM HY HA.
  destruct (on_target cf R pr chain issuer serial ski RF sup k seed [CaseGetProfile; CaseInitialize] Su) as (w & c & E & MF & ER & Hr & _ & S & X).
  rewrite HA in X. destruct X as (fl & X).
  assert (SY : not_symmetric sup = sup) by (destruct sup; cbn in *; subst; reflexivity). rewrite SY in S.
  destruct (C59_initialize cf R pr chain issuer serial ski sup c w SimOtherLocality false RF MF Hr) as (r & cs & w' & l' & i' & EI & R' & D); [rewrite X, HA; reflexivity|].
  assert (I0 : st_init (w_st w) = false) by (rewrite X; reflexivity).
  assert (S0 : at_slot (w_st w) 0 (ctx_new cf)) by (rewrite X; unfold at_slot, state_new; cbn [st_contexts]; rewrite HM; reflexivity).
  destruct D as [(-> & -> & [(Q & _)|(_ & -> & j & Fj & SS)])|(_ & _ & _ & F)]; [congruence| |destruct (F 0%nat (ctx_new cf) S0 eq_refl)].
  exists w, w'. split; [exact E|]. split.
  - rewrite ER. cbn [run_cases has_support_needed support_needed forallb case_program].
    rewrite (get_profile_says cf R pr chain issuer serial ski RF sup c MF w SimAutoInitLocality false Hr).
    assert (PC : profile_complaints cf sup (w_st w) = []) by (unfold profile_complaints; rewrite HM, S, N.eqb_refl; reflexivity).
    rewrite PC. cbn [app existsb]. rewrite EI. reflexivity.
  - split; [exact R'|]. assert (j = 0%nat); [|subst j; exact SS]. eapply first_unique; [exact Fj|]. split; [exists (ctx_new cf); split; [exact S0|reflexivity]|]. intros; lia.
Qed.
Print Assumptions C59_target_none.

(** The two targets for what is not supported. *)
Theorem C59_target_negative :
  forall cf R (pr : primitives R) chain issuer serial ski sup k seed,
    reference cf pr (backend_digest (prof cf)) chain issuer serial ski -> suits cf k -> gs_auto_init sup = true ->
    exists w o1 b1 o2 b2, sim_start cf R pr chain issuer serial ski (power_on_args sup) seed = (Ok tt, w) /\
      run_target (the_device R) (sim_send cf R pr chain issuer serial ski) sup [CaseUnsupportedCommand] (Some w) = Some ([o1], b1) /\
      (o1 = Ran [] <-> gs_rotate_context sup = false) /\ (o1 = Ran [] -> b1 = at_ w SimAutoInitLocality false) /\
      run_target (the_device R) (sim_send cf R pr chain issuer serial ski) sup [CaseUnsupportedFlag] (Some w) = Some ([o2], b2) /\
      (o2 = Skipped <-> gs_rotate_context sup = false) /\
      (o2 = Ran [] <-> gs_rotate_context sup = true /\ gs_simulation sup = false /\ gs_csr sup = false /\ gs_x509 sup = false /\
                       gs_internal_info sup = false /\ gs_internal_dice sup = false) /\
      (o2 = Ran [] -> b2 = at_ w SimAutoInitLocality false).
Proof.
  intros cf R pr chain issuer serial ski sup k seed RF Su HA.
  destruct (on_target cf R pr chain issuer serial ski RF sup k seed [CaseUnsupportedCommand] Su) as (w & c & E & MF & ER & Hr & Hs & _ & X).
  destruct (on_target cf R pr chain issuer serial ski RF sup k seed [CaseUnsupportedFlag] Su) as (w2 & c2 & E2 & MF2 & ER2 & _).
  assert (w2 = w) by congruence. subst w2.
  assert (B : forall i, ~ supports (w_st w) i <-> asked (power_on_args sup) i = false).
  { intros i. rewrite Hs. destruct (asked (power_on_args sup) i); intuition congruence. }
  rewrite HA in X. destruct X as (fl & _ & _ & _ & _ & H0 & _).
  assert (Hn : names (w_st w) (repeat 0 16) SimAutoInitLocality 0) by (eexists; split; [exact H0|repeat split]).
  destruct (C59_unsupported_command cf R pr chain issuer serial ski c w SimAutoInitLocality false RF MF Hr eq_refl) as (cs1 & w1 & E1 & R1 & I1 & K1).
  destruct (C59_unsupported_flag cf R pr chain issuer serial ski c2 w SimAutoInitLocality false 0 RF MF2 Hr eq_refl Hn) as (cs2 & w3 & E3 & R3 & I3 & K3).
  assert (ER1 : run_target (the_device R) (sim_send cf R pr chain issuer serial ski) sup [CaseUnsupportedCommand] (Some w) = Some ([Ran cs1], at_ w1 SimAutoInitLocality false)).
  { rewrite ER. cbn [run_cases]. unfold has_support_needed. cbn [support_needed forallb case_program]. rewrite HA, E1. cbn [andb]. destruct (existsb is_crash cs1); reflexivity. }
  assert (ER3 : run_target (the_device R) (sim_send cf R pr chain issuer serial ski) sup [CaseUnsupportedFlag] (Some w) =
                Some (if gs_rotate_context sup then ([Ran cs2], at_ w3 SimAutoInitLocality false) else ([Skipped], at_ w SimAutoInitLocality false))).
  { rewrite ER2. cbn [run_cases]. unfold has_support_needed. cbn [support_needed forallb case_program]. rewrite HA, E3. cbn [andb].
    destruct (gs_rotate_context sup); cbn [andb]; [destruct (existsb is_crash cs2)|]; reflexivity. }
  assert (P1 : Ran cs1 = Ran [] <-> cs1 = []) by (split; congruence).
  assert (F : (forall f, In f [SIMULATION; CSR; X509; INTERNAL_INFO; INTERNAL_DICE] -> ~ supports (w_st w) f) <->
              gs_simulation sup = false /\ gs_csr sup = false /\ gs_x509 sup = false /\ gs_internal_info sup = false /\ gs_internal_dice sup = false).
  { split.
    - intros H. repeat split; [apply (proj1 (B SIMULATION))|apply (proj1 (B CSR))|apply (proj1 (B X509))|apply (proj1 (B INTERNAL_INFO))|apply (proj1 (B INTERNAL_DICE))]; apply H; cbn [In]; tauto.
    - intros (H1 & H2 & H3 & H4 & H5) f [<-|[<-|[<-|[<-|[<-|[]]]]]]; apply B; assumption. }
  destruct (gs_rotate_context sup) eqn:HR.
  - exists w, (Ran cs1), (at_ w1 SimAutoInitLocality false), (Ran cs2), (at_ w3 SimAutoInitLocality false).
    split; [exact E|]. split; [exact ER1|]. rewrite P1. assert (Q1 : cs1 <> []) by (rewrite I1, B; cbn [asked ROTATE_CONTEXT power_on_args sa_rotate_context]; congruence).
    split; [split; [contradiction|discriminate]|]. split; [contradiction|]. split; [exact ER3|]. split; [split; discriminate|].
    assert (P2 : Ran cs2 = Ran [] <-> cs2 = []) by (split; congruence). rewrite P2. rewrite <- F, <- I3. split; [tauto|]. intros Q. rewrite K3; [reflexivity|exact Q].
  - exists w, (Ran cs1), (at_ w1 SimAutoInitLocality false), Skipped, (at_ w SimAutoInitLocality false).
    split; [exact E|]. split; [exact ER1|]. rewrite P1. assert (Q1 : cs1 = []) by (apply I1, B; exact HR).
    split; [tauto|]. split; [intros _; rewrite K1; [reflexivity|exact Q1]|]. split; [exact ER3|]. split; [tauto|]. split; [split; [discriminate|intros [Q _]; discriminate]|discriminate].
Qed.
Print Assumptions C59_target_negative.

(** A device with a default context and at least the features Simulation and
    RotateContext: any sequence of the seven tests for such a device, in which the tests of
    rotation come before the others that move to another locality, passes and leaves every
    context as it was, up to the first test for which the device draws no usable handle. *)
Theorem C59_target_sequence :
  forall cf R (pr : primitives R) chain issuer serial ski sup k seed xs,
    reference cf pr (backend_digest (prof cf)) chain issuer serial ski -> suits cf k -> max_handles cf = 64%nat ->
    gs_auto_init sup = true -> gs_simulation sup = true -> gs_rotate_context sup = true -> gs_is_symmetric sup = false ->
    in_order SimAutoInitLocality xs ->
    exists w os b', sim_start cf R pr chain issuer serial ski (power_on_args sup) seed = (Ok tt, w) /\
      run_target (the_device R) (sim_send cf R pr chain issuer serial ski) sup xs (Some w) = Some (os, b') /\
      ((os = map (fun _ => Ran []) xs /\ exists w' l', b' = at_ w' l' false /\ reachable cf (w_st w') /\ undisturbed (w_st w) (w_st w')) \/
       (exists c ys x zs cs os', xs = ys ++ x :: zs /\ os = map (fun _ => Ran []) ys ++ Ran cs :: os' /\
          bad_luck cf R pr chain issuer serial ski c x cs)).
Proof.
  intros cf R pr chain issuer serial ski sup k seed xs RF Su HM HA HI HR HY O.
  destruct (on_target cf R pr chain issuer serial ski RF sup k seed xs Su) as (w & c & E & MF & ER & Hr & Hs & S & X).
  assert (SY : not_symmetric sup = sup) by (destruct sup; cbn in *; subst; reflexivity). rewrite SY in S.
  rewrite HA in X. destruct X as (fl & X).
  destruct (all_run cf R pr chain issuer serial ski RF sup c MF HA HI HM xs w SimAutoInitLocality false) as (os & b' & E2 & Y).
  - eapply settled_auto; [apply RF|rewrite HM; lia|exact Hr|exact X].
  - split; [apply Hs; exact HI|]. split; [apply Hs; exact HR|exact S].
  - auto.
  - exact O.
  - clear - O HA HI HR. revert O. generalize SimAutoInitLocality. induction xs as [|x xs IH]; intros l O; [constructor|]. destruct O as (Rv & _ & O).
    constructor; [|exact (IH _ O)]. destruct x; cbn in *; try contradiction; unfold has_support_needed; cbn; rewrite ?HA, ?HI, ?HR; reflexivity.
  - exists w, os, b'. split; [exact E|]. split; [rewrite ER, E2; reflexivity|]. destruct Y as [Y|(ys & x & zs & cs & os' & Y)]; [left; exact Y|right].
    exists c, ys, x, zs, cs, os'. exact Y.
Qed.
Print Assumptions C59_target_sequence.

(** A device with exactly the features that TestRotateContextHandleSimulation says it needs
    never passes it. *)
Theorem C59_rotate_simulation_needs :
  forall cf R (pr : primitives R) chain issuer serial ski sup k seed,
    reference cf pr (backend_digest (prof cf)) chain issuer serial ski -> suits cf k ->
    gs_simulation sup = true -> gs_rotate_context sup = true -> gs_auto_init sup = false ->
    exists w cs b', sim_start cf R pr chain issuer serial ski (power_on_args sup) seed = (Ok tt, w) /\
      run_target (the_device R) (sim_send cf R pr chain issuer serial ski) sup [CaseRotateSimulation] (Some w) = Some ([Ran cs], b') /\
      (cs = [Stopped 68] \/ ((cs = [Stopped 86] \/ cs = [Stopped 58; Crashed]) /\ exists w1 w2, eight_draws cf pr (backend_digest (prof cf)) w1 w2)).
Proof.
  intros cf R pr chain issuer serial ski sup k seed RF Su HI HR HA.
  destruct (on_target cf R pr chain issuer serial ski RF sup k seed [CaseRotateSimulation] Su) as (w & c & E & MF & ER & Hr & Hs & _ & X).
  rewrite HA in X. destruct X as (fl & X). pose proof (rf_config _ _ _ _ _ _ _ RF) as Hcf.
  assert (Blank : forall j y, at_slot (w_st w) j y -> c_state y = Inactive).
  { intros j y Hy. rewrite X in Hy. apply (new_slot cf) in Hy as [_ ->]. reflexivity. }
  destruct (C59_rotate_simulation cf R pr chain issuer serial ski sup c w SimAutoInitLocality false RF MF Hr eq_refl HI) as (r & cs & w' & E1 & R1 & D); [apply Hs; exact HR|].
  exists w, cs, (at_ w' SimAutoInitLocality false). split; [exact E|]. split.
  - rewrite ER. cbn [run_cases has_support_needed support_needed forallb case_program]. rewrite HI, HR. cbn [andb]. rewrite E1. destruct (existsb is_crash cs); reflexivity.
  - destruct D as [(-> & _ & D)|(w1 & h & idx & old & _ & _ & _ & [(-> & _ & D)|[((j & y & Hy & A & _) & _)|(_ & -> & _)]])].
    + right. split; [auto|]. destruct D as [D|[D|D]]; [destruct D; apply Hs; exact HI| |eauto]. exfalso.
      assert (Hy : exists y, at_slot (w_st w) 0 y) by (rewrite X; exists (ctx_new cf); apply (new_slot cf); split; [apply Hcf|reflexivity]).
      destruct Hy as (y & Hy). exact (D 0%nat y Hy (Blank _ _ Hy)).
    + right. split; [auto|eauto].
    + rewrite (Blank j y Hy) in A. discriminate A.
    + auto.
Qed.
Print Assumptions C59_rotate_simulation_needs.

(** ** Cases *)
Definition full_cf : config :=
  {| max_handles := 64; feat_p256 := true; feat_p384 := false; feat_mldsa := false; prof := P256Sha256; fuel := 65 |}.
Lemma full_reference : reference full_cf toy_pr (backend_digest (prof full_cf)) ref_chain [48; 0] [1; 2] (repeat 7 20).
Proof.
  split.
  - unfold config_ok. cbn. repeat split; lia.
  - right; reflexivity.
  - apply C51_sound.
  - reflexivity.
  - split; [discriminate|]. repeat split; apply Nat.leb_le; reflexivity.
  - apply Nat.ltb_lt. vm_compute. reflexivity.
Qed.
Lemma full_suits : suits full_cf Full256.
Proof. constructor; [reflexivity|reflexivity|vm_compute; discriminate]. Qed.
Lemma toy_suits : suits toy_cf Full256.
Proof. constructor; [reflexivity|reflexivity|vm_compute; discriminate]. Qed.

Definition go_nothing : go_support :=
  {| gs_simulation := false; gs_recursive := false; gs_auto_init := false; gs_rotate_context := false; gs_x509 := false; gs_csr := false;
     gs_is_symmetric := false; gs_internal_info := false; gs_internal_dice := false; gs_retain_parent_context := false; gs_cdi_export := false; gs_critical := false |}.
Definition go_default : go_support :=
  {| gs_simulation := true; gs_recursive := true; gs_auto_init := true; gs_rotate_context := true; gs_x509 := true; gs_csr := true;
     gs_is_symmetric := false; gs_internal_info := false; gs_internal_dice := false; gs_retain_parent_context := true; gs_cdi_export := false; gs_critical := true |}.
Definition go_rotating (auto sim : bool) : go_support :=
  {| gs_simulation := sim; gs_recursive := false; gs_auto_init := auto; gs_rotate_context := true; gs_x509 := false; gs_csr := false;
     gs_is_symmetric := false; gs_internal_info := false; gs_internal_dice := false; gs_retain_parent_context := false; gs_cdi_export := false; gs_critical := false |}.
(** The outcomes on the reference device with a counting generator. *)
Definition tried (cf : config) (pr : primitives N) (sup : go_support) (xs : list suite_case) : option (list Suite.outcome) :=
  option_map fst (run_target (the_device N) (sim_send cf N pr ref_chain [48; 0] [1; 2] (repeat 7 20)) sup xs
    (Some (snd (sim_start cf N pr ref_chain [48; 0] [1; 2] (repeat 7 20) (power_on_args sup) 3)))).
(** The order of AllTestCases, without the tests that are not modelled. *)
Definition default_order : list suite_case :=
  [CaseRotate; CaseRotateSimulation; CaseGetProfile; CaseInitialize; CaseInitializeSimulation; CaseInvalidHandle; CaseWrongLocality].

(** The hypotheses of the theorems about targets are met; the outcomes are what they say.
    A smaller device only fails the test of the profile.  In another order the tests of
    rotation fail on the same device.  A generator of zeros makes the suite panic. *)
Example C59_targets_case :
  reference full_cf toy_pr (backend_digest (prof full_cf)) ref_chain [48; 0] [1; 2] (repeat 7 20) /\ suits full_cf Full256 /\
  max_handles full_cf = 64%nat /\ in_order SimAutoInitLocality default_order /\
  tried full_cf toy_pr go_default default_order = Some (map (fun _ => Ran []) default_order) /\
  tried full_cf toy_pr go_nothing [CaseGetProfile; CaseInitialize] = Some [Ran []; Ran []].
Proof.
  split; [exact full_reference|]. split; [exact full_suits|]. split; [reflexivity|]. split; [cbn; intuition discriminate|].
  split; vm_compute; reflexivity.
Qed.
Example C59_other_targets_case :
  reference toy_cf toy_pr (backend_digest (prof toy_cf)) ref_chain [48; 0] [1; 2] (repeat 7 20) /\ suits toy_cf Full256 /\
  tried toy_cf toy_pr go_default [CaseGetProfile] = Some [Ran [Failed 36; Failed 39; Failed 36; Failed 39]] /\
  tried toy_cf toy_pr go_default [CaseInitialize; CaseRotate; CaseRotateSimulation] = Some [Ran []; Ran [Stopped 20]; Ran [Stopped 68]] /\
  tried toy_cf toy_pr (go_rotating false true) [CaseRotateSimulation; CaseUnsupportedFlag] = Some [Ran [Stopped 68]; Skipped] /\
  tried toy_cf toy_pr (go_rotating true false) [CaseUnsupportedFlag; CaseUnsupportedCommand] = Some [Ran []; Ran [Failed 139]] /\
  tried toy_cf toy_pr go_default [CaseUnsupportedCommand] = Some [Ran [Failed 139]] /\
  tried toy_cf dead_pr go_default [CaseRotate; CaseInitializeSimulation] = Some [Ran [Stopped 20]; Ran [Stopped 64]].
Proof.
  split; [exact toy_reference|]. split; [exact toy_suits|]. repeat (apply conj; [vm_compute; reflexivity|]). vm_compute. reflexivity.
Qed.
