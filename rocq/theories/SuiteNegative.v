(** SuiteNegative.v -- what the negative tests and the tests of InitializeContext of the
    verification suite report: proofs. *)
From Verif Require Import Base Errors Types StateOps Env Wire Instance Commands RespBuf Response X509 X509Cert RustCrypto DefaultPlatform Simulator GoClient Suite ClientSpec
  Lib Spec Exec Effects Forest History WireSpec Contract Codec Steps Reach CommandSpecs Responses Execute Walk Measure Reasons Explain Avail X509Spec X509Cmd X509Facts
  X509Fit X509Fail X509Sane PlatformProofs RustProofs Trace TraceCmds TraceRust RefFaults Props_Commands Props_Avail Props_Reference Props_Size Props_Fail Props_Calls
  Props_Handles Props_Tree Props_Harness SimulatorProofs Props_Simulator ClientProofs ClientChain Props_Client SuiteProofs SuiteCases Ledger.
Local Open Scope N_scope.

Lemma certify_presents kd x a f g : presents (meant kd (GcCertify x a f g)) x /\ forall s e, ~ early s (meant kd (GcCertify x a f g)) e.
Proof. destruct kd; (split; [reflexivity|intros s e H; exact H]). Qed.
Lemma sign_presents kd x a f g : presents (meant kd (GcSign x a f g)) x /\ forall s e, ~ early s (meant kd (GcSign x a f g)) e.
Proof. destruct kd; (split; [reflexivity|intros s e H; exact H]). Qed.

Section Tests.
  Variable cf : config.
  Variable R : Type.
  Variable pr : primitives R.
  Variables chain issuer serial ski : bytes.
  Notation dig := (backend_digest (prof cf)).
  Hypothesis RF : reference cf pr dig chain issuer serial ski.
  Notation ops := (sim_ops cf R pr).
  Notation plat := (sim_platform chain issuer serial ski).
  Notation send := (sim_send cf R pr chain issuer serial ski).
  Notation runs := (runs_to cf R pr chain issuer serial ski).
  Notation device := (option (world (rust_c R) unit)).
  Variable sup : go_support.
  Variable c : go_client.
  Hypothesis MF : made_for cf c.
  Notation call := (Suite.call device send c).
  Notation k := (cl_kind c).
  Notation must_fail := (Suite.must_fail device send c).

  Let Hcf : config_ok cf := rf_config _ _ _ _ _ _ _ RF.
  Let init := init_live cf R pr chain issuer serial ski RF c MF.
  Let rotate := rotate_live cf R pr chain issuer serial ski RF c MF.
  Let destroy := destroy_live cf R pr chain issuer serial ski RF c MF.
  Let refused := refused_live cf R pr chain issuer serial ski RF c MF.
  Let transport := transport_call cf R pr chain issuer serial ski RF c.
  Let failing := must_fail_status cf R pr chain issuer serial ski c.
  Let failing_given := must_fail_given cf R pr chain issuer serial ski c.

  Definition zeros := repeat 0 (profile_digest_size (own_profile cf)).
  Lemma zeros_label : byte_string (label_size k) zeros.
  Proof. unfold zeros. rewrite (own_digest cf c MF). apply zeros_byte_string. Qed.
  Lemma zeros_message : byte_string (message_size k) (repeat 0 (profile_sign_data_size (own_profile cf))).
  Proof. rewrite (own_data cf c MF). apply zeros_byte_string. Qed.

  Lemma no_option s : ~ unsupported_option s 0.
  Proof. unfold unsupported_option. rewrite !N.bits_0. intuition discriminate. Qed.

  Lemma derive_usable x f : byte_string 16 x -> u32 f -> usable k (GcDerive x zeros f 0 0).
  Proof. intros H U. cbn [usable]. split; [exact H|]. split; [apply zeros_label|]. split; [exact U|]. split; reflexivity. Qed.
  Lemma certify_usable x f : byte_string 16 x -> u32 f -> usable k (GcCertify x zeros f 0).
  Proof. intros H U. cbn [usable]. split; [exact H|]. split; [apply zeros_label|]. split; [exact U|reflexivity]. Qed.
  Lemma sign_usable x : byte_string 16 x -> usable k (GcSign x zeros 0 (repeat 0 (profile_sign_data_size (own_profile cf)))).
  Proof. intros H. cbn [usable]. split; [exact H|]. split; [apply zeros_label|]. split; [reflexivity|]. split; [apply zeros_message|reflexivity]. Qed.

  (** The five calls with a handle that names nothing in the locality. *)
  Definition five (x : bytes) (st : N) (a1 a2 b1 b2 c1 c2 d1 d2 e1 e2 : N) : test device unit :=
    andthen device (must_fail (GcDerive x zeros 0 0 0) [st] a1 a2) (fun _ =>
    andthen device (must_fail (GcCertify x zeros 0 0) [st] b1 b2) (fun _ =>
    andthen device (must_fail (GcSign x zeros 0 (repeat 0 (profile_sign_data_size (own_profile cf)))) [st] c1 c2) (fun _ =>
    andthen device (must_fail (GcRotate x TargetIsDefault) [st] d1 d2) (fun _ =>
    must_fail (GcDestroy x) [st] e1 e2)))).

  Lemma five_refused x er w l i a1 a2 b1 b2 c1 c2 d1 d2 e1 e2 : reachable cf (w_st w) -> u32 l -> byte_string 16 x ->
    (forall j, ~ names (w_st w) x l j) -> supports (w_st w) ROTATE_CONTEXT -> (forall e, denied (w_st w) l e -> e = er) ->
    five x (get_error_code er) a1 a2 b1 b2 c1 c2 d1 d2 e1 e2 (at_ w l i) = (Some tt, [], at_ w l i).
  Proof.
    intros Hr Ul Ux NN Hs De. unfold five.
    assert (ONE : forall q l1 l2, usable k q -> presents (meant k q) x -> (forall e, ~ early (w_st w) (meant k q) e) -> (forall u, meant k q <> CmdUpdateContextMeasurement u) ->
              must_fail q [get_error_code er] l1 l2 (at_ w l i) = (Some tt, [], at_ w l i)).
    { intros q l1 l2 U P NE NU. destruct (refused q x w l i Hr Ul U P NN) as (e & E & [D|[D|(_ & u & D)]]); [|destruct (NE e D)|destruct (NU u D)].
      rewrite (De e D) in E. rewrite (failing _ _ _ _ _ _ _ E). cbn [existsb]. rewrite N.eqb_refl. reflexivity. }
    rewrite (then_step _ _ _ tt (at_ w l i)); [|apply ONE; [apply derive_usable; [exact Ux|reflexivity]|reflexivity|intros e [_ Q]; exact (no_option _ Q)|discriminate]].
    rewrite (then_step _ _ _ tt (at_ w l i)); [|apply ONE; [apply certify_usable; [exact Ux|reflexivity]|apply certify_presents|apply certify_presents|discriminate]].
    rewrite (then_step _ _ _ tt (at_ w l i)); [|apply ONE; [apply sign_usable; exact Ux|apply sign_presents|apply sign_presents|discriminate]].
    rewrite (then_step _ _ _ tt (at_ w l i)); [|apply ONE; [split; [exact Ux|reflexivity]|reflexivity|intros e [_ Q]; exact (Q Hs)|discriminate]].
    apply ONE; [exact Ux|reflexivity|intros e Q; exact Q|discriminate].
  Qed.

  Definition plain (e : dpe_error) : Prop :=
    match e with InvalidHandle | InvalidLocality | ArgumentNotSupported | InvalidCommand | InvalidArgument => True | _ => False end.
  Lemma code_plain e e0 : plain e0 -> get_error_code e = get_error_code e0 -> e = e0.
  Proof.
    intros P H.
    assert (S : (get_error_code e < 0x1000000)%N) by (rewrite H; destruct e0; try contradiction; reflexivity).
    destruct e; try (destruct e0; try contradiction; first [reflexivity|discriminate H]); exfalso; destruct e; discriminate S.
  Qed.

  (** Any call comes to an end, with an answer or a status. *)
  Lemma must_fail_runs q sts l1 l2 w l i : reachable cf (w_st w) -> u32 l -> usable k q ->
    exists r out w' v, runs (meant k q) l w r out w' /\ understood cf (meant k q) r out v /\
      call q (at_ w l i) = (Some v, [], at_ w' l i) /\ reachable cf (w_st w') /\ command_wf cf (meant k q) /\ WireSpec.for_profile cf (meant k q) /\
      must_fail q sts l1 l2 (at_ w l i) =
      (Some tt, match r with
                | Ok _ => [Failed l1]
                | Err e => if existsb (N.eqb (get_error_code e)) sts then [] else [Failed l2]
                | Crash _ => []
                end, at_ w' l i).
  Proof.
    intros Hr Ul U. destruct (call_live cf R pr chain issuer serial ski RF c MF q w l i Hr Ul U) as (r & out & w' & v & Hrun & D & E & Hr' & WC & WP).
    exists r, out, w', v. do 6 (split; [assumption|]). destruct r as [n|e|kk]; [| |destruct D].
    - destruct D as (resp & _ & _ & ->). apply failing_given with (v := told cf resp). exact E.
    - cbn [understood] in D. subst v. apply failing. exact E.
  Qed.


  Lemma mask_kept q w l r out w' : reachable cf (w_st w) -> u32 l -> command_wf cf (meant k q) -> runs (meant k q) l w r out w' -> st_support (w_st w') = st_support (w_st w).
  Proof.
    intros Hr Ul WC Hrun. destruct Hrun as (w1 & X & _ & ->). cbn [w_st]. rewrite <- (eta R w1) in X.
    destruct (C34_mask_kept cf (en cf R pr chain issuer serial ski) (meant k q) l (w_st w) r (w_st w1) Hcf (reachable_wf cf Hcf _ Hr) WC Ul) as [E _];
      [do 6 eexists; exact X|exact E].
  Qed.

  (** What DeriveContext and CertifyKey fail with, if not for the world around them. *)
  Lemma derive_plain x f e w l out w' : reachable cf (w_st w) -> command_wf cf (meant k (GcDerive x zeros f 0 0)) -> WireSpec.for_profile cf (meant k (GcDerive x zeros f 0 0)) ->
    N.testbit f 23 = false -> N.testbit f 24 = false -> runs (meant k (GcDerive x zeros f 0 0)) l w (Err e) out w' -> plain e ->
    (e = ArgumentNotSupported /\ unsupported_option (w_st w) f) \/ not_yours (w_st w) x l e \/ e = InvalidArgument.
  Proof.
    intros Hr WC FP F23 F24 Hrun He.
    destruct (runs_err cf R pr chain issuer serial ski RF _ l w e out w' Hr WC FP Hrun) as [[Hq|Hq] _].
    - unfold refusal in Hq. cbn [meant dc_flags dc_handle dc_target_locality dc_tci_type] in Hq. cbv zeta in Hq. rewrite F23, F24 in Hq.
      destruct Hq as [[-> _]|[[Q Q']|[Q|(t & y & _ & _ & Hq)]]]; [contradiction|auto|auto|].
      destruct Hq as [[Q _]|[(_ & _ & Q)|[[-> _]|[[Q _]|[Q|[_ Q]]]]]]; [auto| |contradiction|auto| |];
        destruct Q as [(ce & -> & _)|[-> _]]; contradiction.
    - cbn [writer_refusal meant dc_flags] in Hq. destruct Hq as [Q _]. congruence.
  Qed.
  Lemma certify_plain x f e w l out w' : reachable cf (w_st w) -> command_wf cf (meant k (GcCertify x zeros f 0)) -> WireSpec.for_profile cf (meant k (GcCertify x zeros f 0)) ->
    runs (meant k (GcCertify x zeros f 0)) l w (Err e) out w' -> plain e ->
    (e = ArgumentNotSupported /\ ((f = 0 /\ ~ supports (w_st w) X509) \/ (f = 1 /\ ~ supports (w_st w) CSR))) \/ not_yours (w_st w) x l e \/ e = InvalidArgument.
  Proof.
    intros Hr WC FP Hrun He.
    destruct (runs_err cf R pr chain issuer serial ski RF _ l w e out w' Hr WC FP Hrun) as [[Hq|Hq] _]; clear Hrun WC FP; revert Hq; generalize k as kd; intros kd Hq.
    - unfold refusal in Hq. destruct Hq as [[-> _]|Hq]; [contradiction|]. cbn [meant] in Hq. cbv zeta in Hq.
      destruct Hq as (kk & h & E & K & Hq).
      assert (Eh : h = {| ck_handle := x; ck_flags := 0; ck_format := f; ck_label := zeros |}) by (destruct kd; destruct K as [-> |[-> | ->]]; congruence).
      subst h. cbn [ck_handle ck_format ck_label] in Hq. destruct Hq as [Q|(ii & y & _ & _ & Hq)]; [auto|].
      destruct Hq as [Q|[[Q _]|[(? & ? & ? & ? & ? & ? & ? & _ & _ & _ & _ & _ & Q)|[[_ Q]|[Q _]]]]]; [auto|auto|discriminate Q| |auto].
      destruct Q as [(ce & -> & _)|[-> _]]; contradiction.
    - assert (Hq' : not_yours (w_st w) x l e \/ ~ plain e).
      { assert (CR : forall a0 b0 kd0 u0 r0, cert_refusal cf ops plat a0 b0 kd0 x l (w_st w) u0 r0 e -> not_yours (w_st w) x l e \/ ~ plain e).
        { intros a0 b0 kd0 u0 r0 [Q|(ii & cts & _ & _ & Q)]; [auto|]. right. destruct Q as [Q|[(ce & -> & _)|[(pe & -> & _)|[-> _]]]]; try (exact (fun x => x)).
          destruct Q as [(ce & -> & _)|[(pe & -> & _)|[-> _]]]; exact (fun x => x). }
        destruct kd; cbn [meant writer_refusal ck_format ck_handle] in Hq; destruct Hq as [[_ Q]|[_ Q]]; exact (CR _ _ _ _ _ Q). }
      destruct Hq' as [Q|Q]; [auto|contradiction].
  Qed.

  (** With a handle that names something, DeriveContext does not fail for the handle. *)
  Lemma derive_named x f e0 l1 l2 w l i j : reachable cf (w_st w) -> u32 l -> byte_string 16 x -> u32 f ->
    N.testbit f 23 = false -> N.testbit f 24 = false ->
    names (w_st w) x l j -> (e0 = InvalidHandle \/ e0 = InvalidLocality) ->
    exists t w', must_fail (GcDerive x zeros f 0 0) [get_error_code e0] l1 l2 (at_ w l i) = (Some tt, [Failed t], at_ w' l i) /\
      (t = l1 \/ t = l2) /\ reachable cf (w_st w').
  Proof.
    intros Hr Ul Ux Uf F23 F24 Hn He0.
    pose proof (derive_usable x f Ux Uf) as U.
    destruct (must_fail_runs (GcDerive x zeros f 0 0) [get_error_code e0] l1 l2 w l i Hr Ul U) as (r & out & w' & v & Hrun & D & _ & Hr' & WC & FP & E).
    destruct r as [n|e|kk]; [| |destruct D].
    { exists l1, w'. auto. }
    exists l2, w'. split; [|auto]. rewrite E. cbn [existsb]. rewrite orb_false_r.
    destruct (N.eqb_spec (get_error_code e) (get_error_code e0)) as [Q|Q]; [|reflexivity]. exfalso.
    assert (e = e0) by (apply code_plain; [destruct He0 as [-> | ->]; exact I|exact Q]). subst e. clear Q E D.
    destruct (derive_plain x f e0 w l out w' Hr WC FP F23 F24 Hrun) as [[Q _]|[[Q _]|Q]];
      [destruct He0 as [-> | ->]; exact I|destruct He0; congruence|exact (Q j Hn)|destruct He0; congruence].
  Qed.

  Lemma five_runs x st w l i a1 a2 b1 b2 c1 c2 d1 d2 e1 e2 t : reachable cf (w_st w) -> u32 l -> byte_string 16 x ->
    (exists w', must_fail (GcDerive x zeros 0 0 0) [st] a1 a2 (at_ w l i) = (Some tt, [t], at_ w' l i) /\ reachable cf (w_st w')) ->
    exists cs w', five x st a1 a2 b1 b2 c1 c2 d1 d2 e1 e2 (at_ w l i) = (Some tt, t :: cs, at_ w' l i) /\ reachable cf (w_st w').
  Proof.
    intros Hr Ul Ux (w1 & E1 & R1). unfold five. rewrite (then_some _ _ _ _ _ _ E1).
    destruct (must_fail_runs (GcCertify x zeros 0 0) [st] b1 b2 w1 l i R1 Ul (certify_usable x 0 Ux eq_refl)) as (? & ? & w2 & ? & _ & _ & _ & R2 & _ & _ & E2).
    rewrite (then_some _ _ _ _ _ _ E2).
    destruct (must_fail_runs (GcSign x zeros 0 (repeat 0 (profile_sign_data_size (own_profile cf)))) [st] c1 c2 w2 l i R2 Ul (sign_usable x Ux)) as (? & ? & w3 & ? & _ & _ & _ & R3 & _ & _ & E3).
    rewrite (then_some _ _ _ _ _ _ E3).
    destruct (must_fail_runs (GcRotate x TargetIsDefault) [st] d1 d2 w3 l i R3 Ul) as (? & ? & w4 & ? & _ & _ & _ & R4 & _ & _ & E4); [split; [exact Ux|reflexivity]|].
    rewrite (then_some _ _ _ _ _ _ E4).
    destruct (must_fail_runs (GcDestroy x) [st] e1 e2 w4 l i R4 Ul Ux) as (? & ? & w5 & ? & _ & _ & _ & R5 & _ & _ & E5). rewrite E5.
    eexists _, w5. split; [|exact R5]. cbn [app]. reflexivity.
  Qed.

  (** TestWrongLocality. *)
  Definition next (l : N) : N := (l + 1) mod 2 ^ 32.
  Lemma next_u32 l : u32 (next l). Proof. apply N.mod_lt. discriminate. Qed.
  Definition wrong_five : test device unit := five (repeat 0 16) (get_error_code InvalidLocality) 93 95 100 102 108 110 115 117 122 124.
  Lemma wrong_split w l i r cs w' : reachable cf (w_st w) -> wrong_five (at_ w (next l) i) = (r, cs, at_ w' (next l) i) ->
    test_wrong_locality device send c (at_ w l i) = (r, cs, at_ w' l i).
  Proof.
    intros Hr E. unfold test_wrong_locality. rewrite (then_step _ _ _ l (at_ w l i)) by reflexivity.
    rewrite (then_step _ _ _ tt (at_ w (next l) i)) by reflexivity. unfold finally.
    rewrite (then_step _ _ _ (own_profile cf) (at_ w (next l) i)); [|apply transport; [exact Hr|apply next_u32]].
    change (andthen device _ _ (at_ w (next l) i)) with (wrong_five (at_ w (next l) i)). rewrite E. unfold move. rewrite app_nil_r. reflexivity.
  Qed.
  Lemma wrong_locality_passes w l i : reachable cf (w_st w) -> supports (w_st w) ROTATE_CONTEXT -> ~ occupied (w_st w) (next l) ->
    test_wrong_locality device send c (at_ w l i) = (Some tt, [], at_ w l i).
  Proof.
    intros Hr Hs NO. apply wrong_split; [exact Hr|]. apply five_refused; [exact Hr|apply next_u32|apply zeros_byte_string| |exact Hs|].
    - intros j (y & Hj & A & L & _). apply NO. exists j, y. auto.
    - intros e [[Q _]|[_ (j & y & Hj & A & L)]]; [exact Q|]. exfalso. apply NO. exists j, y. auto.
  Qed.
  Lemma named_or_not s h l : (exists j, names s h l j) \/ (forall j, ~ names s h l j).
  Proof.
    destruct (first_dec (names s h l) (length (st_contexts s))) as [(j & Hj & _)|N0]; [apply names_dec| |left; eauto|right; exact N0].
    intros j (y & Hj & _). eapply at_lt; eauto.
  Qed.
  Lemma wrong_locality_fails w l i : reachable cf (w_st w) -> occupied (w_st w) (next l) ->
    exists t cs w', test_wrong_locality device send c (at_ w l i) = (Some tt, Failed t :: cs, at_ w' l i) /\ (t = 93 \/ t = 95) /\ reachable cf (w_st w').
  Proof.
    intros Hr (j & y & Hj & A & L).
    assert (X : exists t, (t = 93 \/ t = 95) /\ exists w', must_fail (GcDerive (repeat 0 16) zeros 0 0 0) [get_error_code InvalidLocality] 93 95 (at_ w (next l) i) =
                 (Some tt, [Failed t], at_ w' (next l) i) /\ reachable cf (w_st w')).
    { destruct (named_or_not (w_st w) (repeat 0 16) (next l)) as [(j' & Hn)|NN].
      - destruct (derive_named (repeat 0 16) 0 InvalidLocality 93 95 w (next l) i j' Hr (next_u32 l) (zeros_byte_string 16) eq_refl eq_refl eq_refl Hn (or_intror eq_refl)) as (t & w' & E & T & R').
        exists t. split; [exact T|]. exists w'. auto.
      - exists 95. split; [auto|]. exists w. split; [|exact Hr].
        destruct (refused (GcDerive (repeat 0 16) zeros 0 0 0) (repeat 0 16) w (next l) i Hr (next_u32 l) (derive_usable _ 0 (zeros_byte_string 16) eq_refl) eq_refl NN) as (e & E & D).
        rewrite (failing _ _ _ _ _ _ _ E).
        destruct D as [[[_ Q]|[-> _]]|[[_ Q]|(_ & u & Q)]]; [destruct (Q j y Hj A L)|reflexivity|destruct (no_option _ Q)|discriminate Q]. }
    destruct X as (t & T & X).
    destruct (five_runs (repeat 0 16) (get_error_code InvalidLocality) w (next l) i 93 95 100 102 108 110 115 117 122 124 (Failed t) Hr (next_u32 l) (zeros_byte_string 16) X) as (cs & w' & E & R').
    exists t, cs, w'. split; [apply wrong_split; [exact Hr|exact E]|auto].
  Qed.

  (** TestInvalidHandle. *)
  Lemma invalid_byte_string : byte_string 16 SuiteInvalidHandle.
  Proof. split; [reflexivity|]. repeat (constructor; [reflexivity|]). constructor. Qed.
  Definition invalid_five : test device unit := five SuiteInvalidHandle (get_error_code InvalidHandle) 31 33 38 40 46 48 53 55 60 62.
  Lemma invalid_says w l i : reachable cf (w_st w) -> u32 l -> gs_simulation sup = true -> supports (w_st w) ROTATE_CONTEXT ->
    (forall j, ~ names (w_st w) SuiteInvalidHandle l j) ->
    exists r cs w', test_invalid_handle device send sup c (at_ w l i) = (r, cs, at_ w' l i) /\ reachable cf (w_st w') /\
      ((cs = [Stopped 86] /\ w_st w' = w_st w /\
          (~ supports (w_st w) SIMULATION \/ Reasons.full (w_st w) \/ eight_draws cf pr dig w w')) \/
       (exists h w1, call (GcInit InitIsSimulation) (at_ w l i) = (Some (given h), [], at_ w1 l i) /\
          ((h <> SuiteInvalidHandle /\ cs = [] /\ undisturbed (w_st w) (w_st w')) \/
           (h = SuiteInvalidHandle /\ exists t cs', cs = Failed t :: cs' /\ (t = 31 \/ t = 33))))).
  Proof.
    intros Hr Ul Hsup Hrot NN. destruct (initial_sim cf R pr chain issuer serial ski RF sup c MF w l i Hr Ul Hsup) as (v & w1 & E1 & R1 & [(e & -> & S1 & EI & Q)|(h & idx & old & -> & Bh & G & Ssim & Hidx & Iold & S1 & EI)]).
    { exists None, [Stopped 86], w1. unfold test_invalid_handle. rewrite (then_none _ _ _ _ _ EI). split; [reflexivity|]. split; [exact R1|]. left.
      split; [reflexivity|]. split; [exact S1|]. destruct Q as [(_ & Q)|[(_ & Q)|(_ & Q)]]; auto. }
    unfold test_invalid_handle. rewrite (then_step _ _ _ h (at_ w1 l i) EI). unfold finally.
    rewrite (then_step _ _ _ (own_profile cf) (at_ w1 l i)); [|apply transport; assumption].
    change (andthen device _ _ (at_ w1 l i)) with (invalid_five (at_ w1 l i)).
    assert (Fr : forall y, In y (st_contexts (w_st w)) -> c_handle y <> h) by (destruct G as (_ & _ & _ & Q); exact Q).
    assert (HN : first_slot (names (put_ctx (w_st w) idx (sim_context cf l h)) h l) idx) by (eapply names_fresh; try eassumption; try reflexivity; exact (at_lt _ _ _ Hidx)).
    destruct (list_eq_dec N.eq_dec h SuiteInvalidHandle) as [Ex|Nx].
    - destruct HN as [Hn _]. rewrite <- S1 in Hn.
      destruct (derive_named h 0 InvalidHandle 31 33 w1 l i idx R1 Ul Bh eq_refl eq_refl eq_refl Hn (or_introl eq_refl)) as (t & w2 & E2 & T & R2).
      destruct (five_runs h (get_error_code InvalidHandle) w1 l i 31 33 38 40 46 48 53 55 60 62 (Failed t) R1 Ul Bh (ex_intro _ w2 (conj E2 R2))) as (cs & w3 & E3 & R3).
      unfold invalid_five. rewrite <- Ex, E3.
      destruct (destroy h w3 l i R3 Ul Bh) as (v4 & w4 & E4 & R4 & _).
      unfold ignore. rewrite (then_step _ _ _ v4 (at_ w4 l i) E4). exists (Some tt), ((Failed t :: cs) ++ []), w4. split; [reflexivity|]. split; [exact R4|]. right.
      exists h, w1. split; [exact E1|]. right. split; [reflexivity|]. exists t, cs. split; [apply app_nil_r|exact T].
    - unfold invalid_five. rewrite (five_refused SuiteInvalidHandle InvalidHandle w1 l i); [|exact R1|exact Ul|exact invalid_byte_string| | |].
      + destruct (destroy_sim cf R pr chain issuer serial ski RF c MF (w_st w) idx old h w1 l i R1 Ul Bh Hidx Iold S1 Fr) as (w2 & E2 & R2 & UD).
        rewrite E2. exists (Some tt), [], w2. split; [reflexivity|]. split; [exact R2|]. right. exists h, w1. split; [exact E1|]. left. auto.
      + intros j (y & Hj & A & L & Hh). rewrite S1 in Hj.
        apply at_put_iff in Hj as [(<- & _ & ->)|(Nj & Hj)]; [exact (Nx Hh)|]. apply (NN j). exists y. auto.
      + rewrite S1. exact Hrot.
      + intros e [[_ Q]|[Q _]]; [|exact Q]. exfalso.
        destruct HN as [(y & Hy & A & L & _) _].
        rewrite S1 in Q. exact (Q idx y Hy A L).
  Qed.

  (** A request for a feature that is not there. *)
  Lemma lacking q w l i : reachable cf (w_st w) -> u32 l -> usable k q -> lacks (w_st w) (meant k q) ->
    exists er, call q (at_ w l i) = (Some (GoErr (GoStatus (get_error_code er))), [], at_ w l i) /\
      match meant k q with
      | CmdRotateCtx _ _ => er = InvalidCommand
      | CmdCertifyKey _ => er = ArgumentNotSupported \/ denied (w_st w) l er
      | _ => er = ArgumentNotSupported
      end /\ exists out, runs (meant k q) l w (Err er) out w /\ command_wf cf (meant k q) /\ WireSpec.for_profile cf (meant k q).
  Proof.
    intros Hr Ul U L. destruct (call_live cf R pr chain issuer serial ski RF c MF q w l i Hr Ul U) as (r & out & w' & v & (w1 & X & -> & ->) & D & E & _ & WC & WP).
    destruct (C34_refused cf (en cf R pr chain issuer serial ski) (meant k q) l _ _ _ X L) as (-> & er & -> & Y).
    cbn [understood] in D. subst v. cbn [w_st w_c w_p] in E, Y. rewrite (eta R) in E. exists er. split; [exact E|]. split; [exact Y|].
    eexists. split; [|split; assumption]. eexists. split; [exact X|]. split; [reflexivity|]. cbn [w_st w_c w_p]. symmetry. apply (eta R).
  Qed.

  (** TestUnsupportedCommand. *)
  Lemma unsupported_command_passes w l i : reachable cf (w_st w) -> u32 l -> ~ supports (w_st w) ROTATE_CONTEXT ->
    test_unsupported_command device send c (at_ w l i) = (Some tt, [], at_ w l i).
  Proof.
    intros Hr Ul NS. unfold test_unsupported_command.
    destruct (lacking (GcRotate (repeat 0 16) TargetIsDefault) w l i Hr Ul (conj (zeros_byte_string 16) eq_refl) NS) as (er & E & Q & _). cbn [meant] in Q. subst er.
    exact (failing _ [StatusInvalidCommand] 137 139 _ _ _ E).
  Qed.
  Lemma unsupported_command_fails w l i : reachable cf (w_st w) -> u32 l -> supports (w_st w) ROTATE_CONTEXT ->
    exists t w', test_unsupported_command device send c (at_ w l i) = (Some tt, [Failed t], at_ w' l i) /\ (t = 137 \/ t = 139) /\ reachable cf (w_st w').
  Proof.
    intros Hr Ul HS. unfold test_unsupported_command.
    destruct (rotate (repeat 0 16) TargetIsDefault w l i Hr Ul (zeros_byte_string 16) eq_refl) as (v & w' & E & R' & [(e & -> & _ & Q)|(nh & -> & _)]).
    - exists 139, w'. split; [|auto]. unfold DefaultContextHandle. rewrite (failing _ [StatusInvalidCommand] 137 139 _ _ _ E). cbn [existsb]. rewrite orb_false_r.
      change StatusInvalidCommand with (get_error_code InvalidCommand). destruct (N.eqb_spec (get_error_code e) (get_error_code InvalidCommand)) as [X|_]; [|reflexivity].
      exfalso. apply code_plain in X; [|exact I]. subst e.
      destruct Q as [[_ Q]|[[_ [[Q _]|[Q _]]]|[(Q & _)|(_ & Q & _)]]]; [exact (Q HS)|discriminate Q|discriminate Q|discriminate Q|discriminate Q].
    - exists 137, w'. split; [|auto]. exact (failing_given _ [StatusInvalidCommand] 137 139 _ _ _ E).
  Qed.

  (** TestUnsupportedCommandFlag. *)
  Definition featureless (s : state) : Prop :=
    ~ supports s SIMULATION /\ ~ supports s CSR /\ ~ supports s X509 /\ ~ supports s INTERNAL_INFO /\ ~ supports s INTERNAL_DICE.
  Definition asks_for (q : go_call) : Prop :=
    q = GcInit InitIsSimulation \/ (exists f, q = GcCertify (repeat 0 16) zeros f 0 /\ f <= 1) \/
    (exists b, q = GcDerive (repeat 0 16) zeros (2 ^ b) 0 0 /\ (b = 31 \/ b = 30 \/ b = 25)).
  Lemma asks_usable q : asks_for q -> usable k q.
  Proof.
    intros [-> |[(f & -> & Hf)|(b & -> & Hb)]]; [reflexivity|apply certify_usable; [apply zeros_byte_string|unfold u32; lia]|].
    apply derive_usable; [apply zeros_byte_string|]. destruct Hb as [-> |[-> | ->]]; reflexivity.
  Qed.

  (** A request that fails with the status the test wants asks for something that is
      not there. *)
  Lemma answered q l1 l2 w l i : reachable cf (w_st w) -> u32 l -> asks_for q ->
    exists cs w', must_fail q [StatusArgumentNotSupported] l1 l2 (at_ w l i) = (Some tt, cs, at_ w' l i) /\ reachable cf (w_st w') /\
      st_support (w_st w') = st_support (w_st w) /\ (cs = [] -> lacks (w_st w) (meant k q)).
  Proof.
    intros Hr Ul Hq. pose proof (asks_usable q Hq) as U.
    destruct (must_fail_runs q [StatusArgumentNotSupported] l1 l2 w l i Hr Ul U) as (r & out & w' & v & Hrun & D & _ & Hr' & WC & FP & E).
    pose proof (mask_kept q w l r out w' Hr Ul WC Hrun) as MK.
    destruct r as [n|e|kk]; [| |destruct D].
    { exists [Failed l1], w'. do 3 (split; [assumption|]). discriminate. }
    eexists _, w'. split; [exact E|]. do 2 (split; [assumption|]). cbn [existsb]. rewrite orb_false_r.
    change StatusArgumentNotSupported with (get_error_code ArgumentNotSupported).
    destruct (N.eqb_spec (get_error_code e) (get_error_code ArgumentNotSupported)) as [X|_]; [|discriminate]. intros _.
    apply code_plain in X; [|exact I]. subst e. clear E D MK Hr' U.
    destruct Hq as [-> |[(f & -> & Hf)|(b & -> & Hb)]].
    - destruct (runs_err cf R pr chain issuer serial ski RF _ l w _ out w' Hr WC FP Hrun) as [[Hq|Hq] _]; [|destruct Hq].
      unfold refusal in Hq. cbn [meant] in Hq. change (N.testbit InitIsSimulation 30) with false in Hq.
      destruct Hq as [[Q _]|[[_ [[Q _]|Q]]|[[Q _]|[[Q _]|[_ [(ce & Q & _)|[Q _]]]]]]]; try discriminate Q. exact Q.
    - destruct (certify_plain (repeat 0 16) f ArgumentNotSupported w l out w' Hr WC FP Hrun I) as [[_ Q]|[[_ [[Q _]|[Q _]]]|Q]]; try discriminate Q.
      clear -Q. generalize k. intros []; exact Q.
    - destruct (derive_plain (repeat 0 16) (2 ^ b) ArgumentNotSupported w l out w' Hr WC FP) as [[_ Q]|[[_ [[Q _]|[Q _]]]|Q]]; try discriminate Q;
        [destruct Hb as [-> |[-> | ->]]; reflexivity|destruct Hb as [-> |[-> | ->]]; reflexivity|exact Hrun|exact I|exact Q].
  Qed.
  Lemma asked_and_lacking q l1 l2 w l i j : reachable cf (w_st w) -> u32 l -> asks_for q -> names (w_st w) (repeat 0 16) l j -> lacks (w_st w) (meant k q) ->
    must_fail q [StatusArgumentNotSupported] l1 l2 (at_ w l i) = (Some tt, [], at_ w l i).
  Proof.
    intros Hr Ul Hq Hn L. destruct (lacking q w l i Hr Ul (asks_usable q Hq) L) as (er & E & Q & out & Hrun & WC & FP).
    assert (er = ArgumentNotSupported).
    { destruct Hq as [-> |[(f & -> & Hf)|(b & -> & Hb)]]; [exact Q| |exact Q].
      cbn [meant] in Q. destruct Q as [Q|Q]; [exact Q|].
      assert (PE : er = InvalidLocality \/ er = InvalidHandle) by (destruct Q as [[Q _]|[Q _]]; auto).
      destruct (certify_plain (repeat 0 16) f er w l out w Hr WC FP Hrun) as [[X _]|[[X _]|X]];
        [destruct PE as [-> | ->]; exact I|exact X|destruct (X j Hn)|destruct PE; congruence]. }
    subst er. exact (failing _ [StatusArgumentNotSupported] l1 l2 _ _ _ E).
  Qed.

  Lemma unsupported_flag_passes w l i j : reachable cf (w_st w) -> u32 l -> names (w_st w) (repeat 0 16) l j -> featureless (w_st w) ->
    test_unsupported_flag device send c (at_ w l i) = (Some tt, [], at_ w l i).
  Proof.
    intros Hr Ul Hn (N1 & N2 & N3 & N4 & N5). unfold test_unsupported_flag.
    rewrite (then_step _ _ _ (own_profile cf) (at_ w l i)); [|apply transport; assumption]. cbv zeta. unfold DefaultContextHandle. fold zeros.
    assert (C0 : forall f, (f = 0 \/ f = 1) -> lacks (w_st w) (meant k (GcCertify (repeat 0 16) zeros f 0))).
    { intros f Hf. assert (X : (f = 0 /\ ~ supports (w_st w) X509) \/ (f = 1 /\ ~ supports (w_st w) CSR)) by (destruct Hf; auto).
      clear -X. generalize k. intros []; exact X. }
    rewrite (then_step _ _ _ tt (at_ w l i)); [|apply (asked_and_lacking _ _ _ w l i j Hr Ul); [left; reflexivity|exact Hn|split; [reflexivity|exact N1]]].
    rewrite (then_step _ _ _ tt (at_ w l i)); [|apply (asked_and_lacking _ _ _ w l i j Hr Ul); [right; left; exists 1; split; [reflexivity|discriminate]|exact Hn|apply C0; auto]].
    rewrite (then_step _ _ _ tt (at_ w l i)); [|apply (asked_and_lacking _ _ _ w l i j Hr Ul); [right; left; exists 0; split; [reflexivity|discriminate]|exact Hn|apply C0; auto]].
    rewrite (then_step _ _ _ tt (at_ w l i)); [|apply (asked_and_lacking _ _ _ w l i j Hr Ul); [right; right; exists 31; auto|exact Hn|left; split; [reflexivity|exact N4]]].
    rewrite (then_step _ _ _ tt (at_ w l i)); [|apply (asked_and_lacking _ _ _ w l i j Hr Ul); [right; right; exists 30; auto|exact Hn|right; left; split; [reflexivity|exact N5]]].
    apply (asked_and_lacking _ _ _ w l i j Hr Ul); [right; right; exists 25; auto|exact Hn|right; right; right; left; split; [reflexivity|exact N3]].
  Qed.
  Lemma unsupported_flag_means w l i : reachable cf (w_st w) -> u32 l ->
    exists cs w', test_unsupported_flag device send c (at_ w l i) = (Some tt, cs, at_ w' l i) /\ reachable cf (w_st w') /\ (cs = [] -> featureless (w_st w)).
  Proof.
    intros Hr Ul. unfold test_unsupported_flag.
    rewrite (then_step _ _ _ (own_profile cf) (at_ w l i)); [|apply transport; assumption]. cbv zeta. unfold DefaultContextHandle. fold zeros.
    destruct (answered (GcInit InitIsSimulation) 163 165 w l i Hr Ul (or_introl eq_refl)) as (c1 & w1 & E1 & R1 & M1 & L1). rewrite (then_some _ _ _ _ _ _ E1).
    destruct (answered (GcCertify (repeat 0 16) zeros 1 0) 170 172 w1 l i R1 Ul) as (c2 & w2 & E2 & R2 & M2 & L2);
      [right; left; exists 1; split; [reflexivity|discriminate]|]. rewrite (then_some _ _ _ _ _ _ E2).
    destruct (answered (GcCertify (repeat 0 16) zeros 0 0) 177 179 w2 l i R2 Ul) as (c3 & w3 & E3 & R3 & M3 & L3);
      [right; left; exists 0; split; [reflexivity|discriminate]|]. rewrite (then_some _ _ _ _ _ _ E3).
    destruct (answered (GcDerive (repeat 0 16) zeros InternalInputInfo 0 0) 184 186 w3 l i R3 Ul) as (c4 & w4 & E4 & R4 & M4 & L4);
      [right; right; exists 31; auto|]. rewrite (then_some _ _ _ _ _ _ E4).
    destruct (answered (GcDerive (repeat 0 16) zeros InternalInputDice 0 0) 191 193 w4 l i R4 Ul) as (c5 & w5 & E5 & R5 & M5 & L5);
      [right; right; exists 30; auto|]. rewrite (then_some _ _ _ _ _ _ E5).
    destruct (answered (GcDerive (repeat 0 16) zeros InputAllowX509 0 0) 198 200 w5 l i R5 Ul) as (c6 & w6 & E6 & R6 & M6 & L6);
      [right; right; exists 25; auto|]. rewrite E6.
    eexists _, w6. split; [reflexivity|]. split; [exact R6|]. intros X.
    apply app_eq_nil in X as [X1 X]. apply app_eq_nil in X as [X2 X]. apply app_eq_nil in X as [X3 X].
    apply app_eq_nil in X as [X4 X]. apply app_eq_nil in X as [X5 _].
    specialize (L1 X1). specialize (L2 X2). specialize (L3 X3). specialize (L4 X4). specialize (L5 X5).
    assert (SU : forall s b, st_support s = st_support (w_st w) -> ~ supports s b -> ~ supports (w_st w) b) by (unfold supports; intros s b Es Hs; rewrite <- Es; exact Hs).
    destruct L1 as [_ L1]. split; [exact L1|]. split; [|split; [|split]].
    - assert (Y : (1 = 0 /\ ~ supports (w_st w1) X509) \/ (1 = 1 /\ ~ supports (w_st w1) CSR)) by (clear -L2; revert L2; generalize k; intros [] L2; exact L2).
      destruct Y as [[Y _]|[_ Y]]; [discriminate Y|]. apply (SU (w_st w1)); [exact M1|exact Y].
    - assert (Y : (0 = 0 /\ ~ supports (w_st w2) X509) \/ (0 = 1 /\ ~ supports (w_st w2) CSR)) by (clear -L3; revert L3; generalize k; intros [] L3; exact L3).
      destruct Y as [[_ Y]|[Y _]]; [|discriminate Y]. apply (SU (w_st w2)); [congruence|exact Y].
    - destruct L4 as [[_ Y]|[[Y _]|[[Y _]|[[Y _]|[[[Y|Y] _]|[Y _]]]]]]; [|discriminate Y|discriminate Y|discriminate Y|discriminate Y|discriminate Y|discriminate Y].
      apply (SU (w_st w3)); [congruence|exact Y].
    - destruct L5 as [[Y _]|[[_ Y]|[[Y _]|[[Y _]|[[[Y|Y] _]|[Y _]]]]]]; [discriminate Y| |discriminate Y|discriminate Y|discriminate Y|discriminate Y|discriminate Y].
      apply (SU (w_st w4)); [congruence|exact Y].
  Qed.
End Tests.
