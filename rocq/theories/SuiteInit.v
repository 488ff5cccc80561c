(** SuiteInit.v -- what the tests of InitializeContext report, and the tests run one after
    the other: proofs. *)
From Verif Require Import Base Errors Types StateOps Env Wire Instance Commands RespBuf Response X509 X509Cert RustCrypto DefaultPlatform Simulator GoClient Suite ClientSpec
  Lib Spec Exec Effects Forest History WireSpec Contract Codec Steps Reach CommandSpecs Responses Execute Walk Measure Reasons Explain Avail X509Spec X509Cmd X509Facts
  X509Fit X509Fail X509Sane PlatformProofs RustProofs Trace TraceCmds TraceRust RefFaults Props_Commands Props_Avail Props_Reference Props_Size Props_Fail Props_Calls
  Props_Handles Props_Tree Props_Harness SimulatorProofs Props_Simulator ClientProofs ClientChain Props_Client SuiteProofs SuiteCases Denials SuiteNegative.
Local Open Scope N_scope.

Section Tests.
  Variable cf : config.
  Variable R : Type.
  Variable pr : primitives R.
  Variables chain issuer serial ski : bytes.
  Notation dig := (backend_digest (prof cf)).
  Hypothesis RF : reference cf pr dig chain issuer serial ski.
  Notation ops := (sim_ops cf R pr).
  Notation plat := (sim_platform chain issuer serial ski).
  Notation send := (sim_send cf R pr chain issuer serial ski).
  Notation runs := (runs_to cf R pr chain issuer serial ski).
  Notation device := (option (world (rust_c R) unit)).
  Variable sup : go_support.
  Variable c : go_client.
  Hypothesis MF : made_for cf c.
  Notation call := (Suite.call device send c).
  Notation k := (cl_kind c).
  Notation must_fail := (Suite.must_fail device send c).

  Let Hcf : config_ok cf := rf_config _ _ _ _ _ _ _ RF.
  Let init := init_live cf R pr chain issuer serial ski RF c MF.
  Let destroy := destroy_live cf R pr chain issuer serial ski RF c MF.
  Let failing := must_fail_status cf R pr chain issuer serial ski c.

  (** A call that fails without touching anything. *)
  Lemma untouched q er w l i : reachable cf (w_st w) -> u32 l -> usable k q ->
    (forall w0 r w1, w_st w0 = w_st w -> sim_exec cf R pr chain issuer serial ski (meant k q) l w0 = (r, w1) -> r = Err er /\ w1 = w0) ->
    call q (at_ w l i) = (Some (GoErr (GoStatus (get_error_code er))), [], at_ w l i).
  Proof.
    intros Hr Ul U H. destruct (call_live cf R pr chain issuer serial ski RF c MF q w l i Hr Ul U) as (r & out & w' & v & (w1 & X & -> & ->) & D & E & _).
    destruct (fun A => H _ _ _ A X) as [-> ->]; [reflexivity|]. cbn [understood] in D. subst v. cbn [w_st w_c w_p] in E. rewrite (eta R) in E. exact E.
  Qed.
  Lemma init_again l1 l2 w l i : reachable cf (w_st w) -> u32 l -> st_init (w_st w) = true ->
    must_fail (GcInit InitIsDefault) [StatusArgumentNotSupported; StatusInvalidArgument] l1 l2 (at_ w l i) = (Some tt, [], at_ w l i).
  Proof.
    intros Hr Ul Hi. apply (failing _ [StatusArgumentNotSupported; StatusInvalidArgument] l1 l2 _ (get_error_code ArgumentNotSupported)).
    apply untouched; [exact Hr|exact Ul|reflexivity|]. intros w0 r w1 E0 X.
    apply (init_refused cf (rust_c R) unit ops plat (x509_gen cf (rust_c R) unit ops plat) InitIsDefault l w0 r w1 X). right. split; [reflexivity|]. rewrite E0. exact Hi.
  Qed.
  Lemma init_zero l1 l2 w l i : reachable cf (w_st w) -> u32 l ->
    must_fail (GcInit 0) [StatusInvalidArgument] l1 l2 (at_ w l i) = (Some tt, [], at_ w l i).
  Proof.
    intros Hr Ul. apply (failing _ [StatusInvalidArgument] l1 l2 _ (get_error_code InvalidArgument)).
    apply untouched; [exact Hr|exact Ul|reflexivity|]. intros w0 r w1 E0 X. unfold sim_exec in X. cbn [meant exec_command] in X. unfold exec_init in X.
    rewrite bind_get_st in X. change (if_default 0) with false in X. change (if_simulation 0) with false in X. cbn [andb orb xorb negb] in X.
    injection X as <- <-. auto.
  Qed.

  (** The instance has its default context, or it gets it. *)
  Definition set_up (l : N) (s s' : state) : Prop :=
    (st_init s = true /\ s' = s) \/
    (st_init s = false /\ exists j, first_slot (inactive_at s) j /\ s' = put_ctx (set_init true s) j (init_context cf Normal l (repeat 0 16) true)).

  Definition prefix : test device unit :=
    andthen device (fun b => (Some (gs_auto_init sup || bn_initialized device b)%bool, [], b)) (fun init =>
    andthen device (if init then done device tt
             else andthen device (must_handle device send c (GcInit InitIsDefault) 35) (fun h =>
                  andthen device (must device (same_handle h (repeat 0 16)) 38) (fun _ =>
                  fun b => (Some tt, [], set_initialized device b)))) (fun _ =>
    andthen device (must_fail (GcInit InitIsDefault) [StatusArgumentNotSupported; StatusInvalidArgument] 46 48) (fun _ =>
    must_fail (GcInit 0) [StatusInvalidArgument] 54 56))).

  Lemma assoc {A B D} (m : test device A) (f : A -> test device B) (g : B -> test device D) b :
    andthen device (andthen device m f) g b = andthen device m (fun a => andthen device (f a) g) b.
  Proof.
    unfold andthen. destruct (m b) as [[[a|] l] b1]; [|reflexivity]. destruct (f a b1) as [[[a2|] l2] b2]; [|reflexivity].
    destruct (g a2 b2) as [[r l3] b3]. rewrite app_assoc. reflexivity.
  Qed.

  Lemma then_ext {A B} (m : test device A) (f g : A -> test device B) b :
    (forall a b1, f a b1 = g a b1) -> andthen device m f b = andthen device m g b.
  Proof. intros H. unfold andthen. destruct (m b) as [[[a|] l] b1]; [|reflexivity]. rewrite H. reflexivity. Qed.

  (** The simulator's flag for what the suite did and the instance agree. *)
  Definition agrees (s : state) (i : bool) : Prop := st_init s = (gs_auto_init sup || i)%bool.

  Lemma started w l i : reachable cf (w_st w) -> u32 l -> agrees (w_st w) i ->
    (st_init (w_st w) = false -> ~ Reasons.full (w_st w)) ->
    exists i' w', prefix (at_ w l i) = (Some tt, [], at_ w' l i') /\ reachable cf (w_st w') /\ set_up l (w_st w) (w_st w') /\
      agrees (w_st w') i' /\ st_init (w_st w') = true /\ (st_init (w_st w) = true -> i' = i /\ w' = w).
  Proof.
    intros Hr Ul Ag NF. unfold prefix. rewrite (then_step _ _ _ (gs_auto_init sup || i)%bool (at_ w l i)) by reflexivity.
    unfold agrees in Ag. rewrite <- Ag. destruct (st_init (w_st w)) eqn:Hi.
    - rewrite (then_step _ _ _ tt (at_ w l i)) by reflexivity.
      rewrite (then_step _ _ _ tt (at_ w l i)); [|apply init_again; assumption].
      rewrite init_zero by assumption. exists i, w. split; [reflexivity|]. split; [exact Hr|]. split; [left; auto|]. split; [congruence|]. auto.
    - destruct (init InitIsDefault w l i Hr Ul eq_refl) as (v & w1 & E & R1 & [(e & _ & _ & X)|(h & -> & _ & _ & D)]).
      { exfalso. destruct X as [(_ & [(_ & X)|(X & _)])|[(_ & X)|[(_ & X)|(X & _)]]]; [congruence|discriminate X|discriminate X|exact (NF eq_refl X)|discriminate X]. }
      destruct D as (j & h' & Fj & Eb & [(_ & _ & _ & Eh & S1)|(Q & _)]); [|discriminate Q]. apply resp_inj in Eb. subst h'. unfold default_handle in Eh. subst h.
      rewrite (then_step _ _ _ tt (at_ w1 l true)).
      2:{ rewrite (then_step _ _ _ (repeat 0 16) (at_ w1 l i)); [|unfold must_handle; rewrite (then_step _ _ _ _ _ E); reflexivity].
          reflexivity. }
      assert (I1 : st_init (w_st w1) = true) by (rewrite S1; reflexivity).
      rewrite (then_step _ _ _ tt (at_ w1 l true)); [|apply init_again; assumption].
      rewrite init_zero by assumption. exists true, w1. split; [reflexivity|]. split; [exact R1|].
      split; [right; split; [exact Hi|]; exists j; split; [exact Fj|exact S1]|]. split; [|split; [exact I1|congruence]].
      unfold agrees. rewrite I1, orb_true_r. reflexivity.
  Qed.
  Lemma not_started w l i : reachable cf (w_st w) -> u32 l -> agrees (w_st w) i -> st_init (w_st w) = false -> Reasons.full (w_st w) ->
    exists w', prefix (at_ w l i) = (None, [Stopped 35], at_ w' l i) /\ reachable cf (w_st w') /\ w_st w' = w_st w.
  Proof.
    intros Hr Ul Ag Hi F. unfold prefix. rewrite (then_step _ _ _ (gs_auto_init sup || i)%bool (at_ w l i)) by reflexivity.
    unfold agrees in Ag. rewrite <- Ag, Hi.
    destruct (init InitIsDefault w l i Hr Ul eq_refl) as (v & w1 & E & R1 & [(e & -> & S1 & X)|(h & _ & _ & _ & D)]).
    - exists w1. split; [|auto]. apply then_none. apply then_none. unfold must_handle. rewrite (then_step _ _ _ _ _ E). reflexivity.
    - exfalso. destruct D as (j & h' & ((old & O1 & O2) & _) & _). exact (F j old O1 O2).
  Qed.

  Lemma context_prefix sim b : test_init_context device send sup c sim b =
    andthen device prefix (fun _ => if sim then
      andthen device (must_handle device send c (GcInit InitIsSimulation) 64) (fun h =>
      finally device (must device (negb (same_handle h (repeat 0 16))) 70) (ignore device send c (GcDestroy h)))
    else done device tt) b.
  Proof.
    unfold test_init_context, prefix. rewrite assoc. apply then_ext. intros started0 b1.
    rewrite assoc. apply then_ext. intros [] b2. rewrite assoc. apply then_ext. intros [] b3. reflexivity.
  Qed.

  (** TestInitializeContext. *)
  Lemma once w l i : reachable cf (w_st w) -> u32 l -> agrees (w_st w) i -> (st_init (w_st w) = false -> ~ Reasons.full (w_st w)) ->
    exists i' w', test_init_context device send sup c false (at_ w l i) = (Some tt, [], at_ w' l i') /\ reachable cf (w_st w') /\ set_up l (w_st w) (w_st w') /\
      agrees (w_st w') i' /\ st_init (w_st w') = true /\ (st_init (w_st w) = true -> i' = i /\ w' = w).
  Proof.
    intros Hr Ul Ag NF. destruct (started w l i Hr Ul Ag NF) as (i' & w' & E & X). exists i', w'. split; [|exact X].
    rewrite context_prefix, (then_step _ _ _ _ _ E). reflexivity.
  Qed.
  Lemma initialize_says w l i : reachable cf (w_st w) -> agrees (w_st w) i ->
    (st_init (w_st w) = false -> ~ Reasons.full (w_st w)) ->
    exists i' w', test_initialize device send sup c (at_ w l i) = (Some tt, [], at_ w' SimOtherLocality i') /\ reachable cf (w_st w') /\
      set_up SimAutoInitLocality (w_st w) (w_st w') /\ agrees (w_st w') i' /\ (st_init (w_st w) = true -> i' = i /\ w' = w).
  Proof.
    intros Hr Ag NF. unfold test_initialize.
    destruct (once w SimAutoInitLocality i Hr eq_refl Ag NF) as (i1 & w1 & E1 & R1 & S1 & A1 & I1 & K1).
    unfold for_localities. rewrite (then_step _ _ _ tt (at_ w SimAutoInitLocality i)) by reflexivity. rewrite (then_step _ _ _ _ _ E1).
    rewrite (then_step _ _ _ tt (at_ w1 SimOtherLocality i1)) by reflexivity.
    destruct (once w1 SimOtherLocality i1 R1 eq_refl A1) as (i2 & w2 & E2 & R2 & _ & _ & _ & K2); [congruence|]. destruct (K2 I1) as [-> ->].
    exists i1, w1. split; [exact E2|]. auto.
  Qed.
  Lemma initialize_full w l i : reachable cf (w_st w) -> agrees (w_st w) i -> st_init (w_st w) = false -> Reasons.full (w_st w) ->
    exists w', test_initialize device send sup c (at_ w l i) = (None, [Stopped 35], at_ w' SimAutoInitLocality i) /\ reachable cf (w_st w') /\ w_st w' = w_st w.
  Proof.
    intros Hr Ag Hi F. destruct (not_started w SimAutoInitLocality i Hr eq_refl Ag Hi F) as (w' & E & X). exists w'. split; [|exact X].
    unfold test_initialize, for_localities. rewrite (then_step _ _ _ tt (at_ w SimAutoInitLocality i)) by reflexivity. apply then_none.
    rewrite context_prefix. apply then_none. exact E.
  Qed.

  (** TestInitializeSimulation. *)
  Definition no_simulation (w w' : world (rust_c R) unit) : Prop :=
    ~ supports (w_st w) SIMULATION \/ Reasons.full (w_st w) \/ eight_draws cf pr dig w w'.
  Lemma simulated w l i : reachable cf (w_st w) -> u32 l -> agrees (w_st w) i -> st_init (w_st w) = true -> gs_simulation sup = true ->
    exists r cs w', test_init_context device send sup c true (at_ w l i) = (r, cs, at_ w' l i) /\ reachable cf (w_st w') /\ undisturbed (w_st w) (w_st w') /\
      ((r = Some tt /\ cs = [] /\ supports (w_st w) SIMULATION) \/ (r = None /\ cs = [Stopped 64] /\ w_st w' = w_st w /\ no_simulation w w')).
  Proof.
    intros Hr Ul Ag Hi Gs. destruct (started w l i Hr Ul Ag) as (i' & w' & E & _ & _ & _ & _ & K); [congruence|]. destruct (K Hi) as [-> ->].
    rewrite context_prefix, (then_step _ _ _ _ _ E).
    destruct (initial_sim cf R pr chain issuer serial ski RF sup c MF w l i Hr Ul Gs) as (v & w1 & E1 & R1 & [(e & -> & S1 & _ & Q)|(h & idx & old & -> & Bh & G & Ssim & Hidx & Iold & S1 & _)]).
    - exists None, [Stopped 64], w1. split; [apply then_none; unfold must_handle; rewrite (then_step _ _ _ _ _ E1); reflexivity|].
      split; [exact R1|]. split; [rewrite S1; apply undisturbed_refl|]. right. split; [reflexivity|]. split; [reflexivity|]. split; [exact S1|].
      destruct Q as [(_ & Q)|[(_ & Q)|(_ & Q)]]; unfold no_simulation; auto.
    - rewrite (then_step _ _ _ h (at_ w1 l i)); [|unfold must_handle; rewrite (then_step _ _ _ _ _ E1); reflexivity].
      assert (ND : h <> repeat 0 16) by apply G. rewrite (proj2 (same_handle_neq h (repeat 0 16)) ND). unfold finally. cbn [negb must done].
      destruct (destroy_sim cf R pr chain issuer serial ski RF c MF (w_st w) idx old h w1 l i R1 Ul Bh Hidx Iold S1) as (w2 & E2 & R2 & UD);
        [destruct G as (_ & _ & _ & Q); exact Q|].
      unfold must, done. rewrite E2. exists (Some tt), [], w2. split; [reflexivity|]. split; [exact R2|]. split; [exact UD|]. left. auto.
  Qed.
  Lemma undisturbed_init s s' : undisturbed s s' -> st_init s' = st_init s.
  Proof. intros (G & _). unfold same_globals in G. intuition congruence. Qed.
  Lemma initialize_simulation_says w l i : reachable cf (w_st w) -> agrees (w_st w) i -> st_init (w_st w) = true -> gs_simulation sup = true ->
    exists r cs w' l', test_initialize_simulation device send sup c (at_ w l i) = (r, cs, at_ w' l' i) /\ reachable cf (w_st w') /\ undisturbed (w_st w) (w_st w') /\
      ((r = Some tt /\ cs = [] /\ l' = SimOtherLocality /\ supports (w_st w) SIMULATION) \/
       (r = None /\ cs = [Stopped 64] /\ exists w1, undisturbed (w_st w) (w_st w1) /\ w_st w' = w_st w1 /\ no_simulation w1 w')).
  Proof.
    intros Hr Ag Hi Gs. unfold test_initialize_simulation, for_localities.
    rewrite (then_step _ _ _ tt (at_ w SimAutoInitLocality i)) by reflexivity.
    destruct (simulated w SimAutoInitLocality i Hr eq_refl Ag Hi Gs) as (r & cs & w1 & E1 & R1 & U1 & [(-> & -> & S1)|(-> & -> & S1 & X)]).
    2:{ exists None, [Stopped 64], w1, SimAutoInitLocality. split; [apply then_none; exact E1|]. split; [exact R1|]. split; [exact U1|]. right.
        split; [reflexivity|]. split; [reflexivity|]. exists w. split; [apply undisturbed_refl|]. auto. }
    rewrite (then_step _ _ _ _ _ E1). rewrite (then_step _ _ _ tt (at_ w1 SimOtherLocality i)) by reflexivity.
    pose proof (undisturbed_init _ _ U1) as I1.
    destruct (simulated w1 SimOtherLocality i R1 eq_refl) as (r & cs & w2 & E2 & R2 & U2 & X); [unfold agrees in *; congruence|congruence|exact Gs|].
    exists r, cs, w2, SimOtherLocality. split; [exact E2|]. split; [exact R2|]. split; [eapply undisturbed_trans; eassumption|].
    destruct X as [(-> & -> & _)|(-> & -> & S2 & X)]; [left; auto|]. right. split; [reflexivity|]. split; [reflexivity|]. exists w1. auto.
  Qed.
End Tests.
