(** SuiteRun.v -- the tests of the verification suite one after the other, and on a device
    that was just switched on: proofs. *)
From Verif Require Import Base Errors Types StateOps Env Wire Instance Commands RespBuf Response X509 X509Cert RustCrypto DefaultPlatform Simulator GoClient Suite ClientSpec
  Lib Spec Exec Effects Forest History WireSpec Contract Codec Steps Reach CommandSpecs Responses Execute Walk Measure Reasons Explain Avail X509Spec X509Cmd X509Facts
  X509Fit X509Fail X509Sane PlatformProofs RustProofs Trace TraceCmds TraceRust RefFaults Props_Commands Props_Avail Props_Reference Props_Size Props_Fail Props_Calls
  Props_Handles Props_Tree Props_Harness SimulatorProofs Props_Simulator ClientProofs ClientChain Props_Client SuiteProofs SuiteCases Denials SuiteNegative SuiteInit.
Local Open Scope N_scope.

(** A device with its default context in the first locality and nothing else, with room. *)
Record settled (cf : config) (s : state) : Prop := {
  se_reachable : reachable cf s;
  se_init : st_init s = true;
  se_default : exists j, names s (repeat 0 16) SimAutoInitLocality j /\ forall i x, at_slot s i x -> live x -> i = j;
  se_room : ~ Reasons.full s
}.

Lemma settled_undisturbed cf s s' : settled cf s -> reachable cf s' -> undisturbed s s' -> settled cf s'.
Proof.
  intros [H1 H2 (j & (x & Hj & A & L & Hh) & H3) H4] Hr (G & Len & P).
  assert (B : forall i y', at_slot s' i y' -> exists y, at_slot s i y /\ (live y -> y' = y) /\ (~ live y -> ~ live y')).
  { intros i y' Hy'. assert (Hy : exists y, at_slot s i y).
    { unfold at_slot in *. destruct (nth_error (st_contexts s) i) as [y|] eqn:E; [eauto|]. apply nth_error_None in E. apply at_lt in Hy'. lia. }
    destruct Hy as (y & Hy). destruct (P i y Hy) as (y2 & Hy2 & Q). unfold at_slot in *. assert (y2 = y') by congruence. subst y2. eauto. }
  constructor; [exact Hr|destruct G; intuition congruence| |].
  - exists j. destruct (P j x Hj) as (x' & Hx' & Q & _). split.
    + exists x'. rewrite (Q ltac:(unfold live; congruence)) in *. auto.
    + intros i y' Hy' Ly'. destruct (B i y' Hy') as (y & Hy & Q1 & Q2).
      apply (H3 i y Hy). intros X. unfold live in *. apply (Q2 ltac:(tauto)). exact Ly'.
  - intros F. apply H4. intros i y Hy X. destruct (P i y Hy) as (y' & Hy' & _ & Q). apply (Q ltac:(unfold live; tauto)). exact (F i y' Hy').
Qed.

Lemma settled_alone cf s : settled cf s -> exists j, names s (repeat 0 16) SimAutoInitLocality j /\ SuiteCases.alone s SimAutoInitLocality j.
Proof. intros [_ _ (j & H & A) _]. exists j. split; [exact H|]. intros i x Hx Ax _. apply (A i x Hx). unfold live. congruence. Qed.
Lemma settled_elsewhere cf s l : settled cf s -> l <> SimAutoInitLocality -> ~ occupied s l.
Proof.
  intros [_ _ (j & (x & Hj & A & L & _) & H) _] N (i & y & Hi & Ay & Ly). assert (i = j) by (apply (H i y Hi); unfold live; congruence). subst i.
  unfold at_slot in *. congruence.
Qed.
Lemma settled_handles cf s h l j : settled cf s -> h <> repeat 0 16 -> ~ names s h l j.
Proof.
  intros [_ _ (j0 & (x & Hj & A & L & Hx) & H) _] N (y & Hy & Ay & Ly & Hh). assert (j = j0) by (apply (H j y Hy); unfold live; congruence). subst j.
  unfold at_slot in *. congruence.
Qed.

Lemma settled_auto cf a fl s : config_ok cf -> (2 <= max_handles cf)%nat -> reachable cf s ->
  auto_initialised cf a fl 0 0 (repeat 0 (tci_size cf)) (repeat 0 (tci_size cf)) s -> settled cf s.
Proof.
  intros Hcf M Hr (_ & _ & Hi & Len & H0 & Hrest). constructor; [exact Hr|exact Hi| |].
  - exists 0%nat. split; [eexists; split; [exact H0|repeat split]|]. intros i x Hx Lx. destruct (Nat.eq_dec i 0) as [|Ni]; [assumption|].
    exfalso. apply Lx. exact (Hrest i x Ni Hx).
  - intros F. destruct (nth_error (st_contexts s) 1) as [y|] eqn:E; [|apply nth_error_None in E; lia].
    apply (F 1%nat y E). apply (Hrest 1%nat y); [discriminate|exact E].
Qed.

Section Run.
  Variable cf : config.
  Variable R : Type.
  Variable pr : primitives R.
  Variables chain issuer serial ski : bytes.
  Notation dig := (backend_digest (prof cf)).
  Hypothesis RF : reference cf pr dig chain issuer serial ski.
  Notation send := (sim_send cf R pr chain issuer serial ski).
  Notation device := (option (world (rust_c R) unit)).
  Variable sup : go_support.
  Variable c : go_client.
  Hypothesis MF : made_for cf c.

  (** The tests that are meant to leave the device as it was, and where the two tests of
      rotation may stand. *)
  Definition reversible (x : suite_case) : Prop := match x with CaseUnsupportedCommand | CaseUnsupportedFlag => False | _ => True end.
  Definition after (x : suite_case) (l : N) : N :=
    match x with CaseGetProfile | CaseInitialize | CaseInitializeSimulation => SimOtherLocality | _ => l end.
  Fixpoint in_order (l : N) (xs : list suite_case) : Prop :=
    match xs with
    | [] => True
    | x :: xs' => reversible x /\ (x = CaseRotate \/ x = CaseRotateSimulation -> l = SimAutoInitLocality) /\ in_order (after x l) xs'
    end.
  (** The handles drawn were no good: eight in a row that are zero or in use, or the one
      handle that the suite takes for invalid. *)
  Definition bad_luck (x : suite_case) (cs : list complaint) : Prop :=
    match x with
    | CaseRotate => cs = [Stopped 20]
    | CaseRotateSimulation => cs = [Stopped 86] \/ cs = [Stopped 58; Crashed]
    | CaseInitializeSimulation => cs = [Stopped 64]
    | CaseInvalidHandle => cs = [Stopped 86]
    | _ => False
    end /\ (exists w1 w2, eight_draws cf pr dig w1 w2) \/
    (x = CaseInvalidHandle /\ (exists t cs', cs = Failed t :: cs' /\ (t = 31 \/ t = 33)) /\
     exists b b1, Suite.call device send c (GcInit InitIsSimulation) b = (Some (given SuiteInvalidHandle), [], b1)).

  Hypothesis Hsup : gs_auto_init sup = true.
  Hypothesis Hsim : gs_simulation sup = true.
  Definition features (s : state) : Prop := supports s SIMULATION /\ supports s ROTATE_CONTEXT /\ st_support s = to_flags sup.
  Hypothesis Hmax : max_handles cf = 64%nat.

  Lemma step x w l i : settled cf (w_st w) -> features (w_st w) -> reversible x -> (l = SimAutoInitLocality \/ l = SimOtherLocality) ->
    (x = CaseRotate \/ x = CaseRotateSimulation -> l = SimAutoInitLocality) ->
    exists r cs b', case_program device send sup c x (at_ w l i) = (r, cs, b') /\
      ((cs = [] /\ exists w', b' = at_ w' (after x l) i /\ reachable cf (w_st w') /\ undisturbed (w_st w) (w_st w')) \/ bad_luck x cs).
  Proof.
    intros SE (F1 & F2 & F3) Rv Hl Hx. pose proof (se_reachable _ _ SE) as Hr.
    assert (Ul : u32 l) by (destruct Hl as [-> | ->]; reflexivity).
    assert (Ag : agrees sup (w_st w) i) by (unfold agrees; rewrite (se_init _ _ SE), Hsup; reflexivity).
    destruct x; cbn [case_program reversible after] in *; try contradiction.
    - rewrite (get_profile_says cf R pr chain issuer serial ski RF sup c MF w l i Hr). do 3 eexists. split; [reflexivity|]. left.
      assert (PC : profile_complaints cf sup (w_st w) = []) by (unfold profile_complaints; rewrite Hmax, F3, N.eqb_refl; reflexivity).
      rewrite PC. split; [reflexivity|]. exists w. split; [reflexivity|]. split; [exact Hr|apply undisturbed_refl].
    - destruct (initialize_says cf R pr chain issuer serial ski RF sup c MF w l i Hr Ag) as (i' & w' & E & R' & _ & _ & K);
        [rewrite (se_init _ _ SE); discriminate|]. destruct (K (se_init _ _ SE)) as [-> ->].
      do 3 eexists. split; [exact E|]. left. split; [reflexivity|]. exists w. split; [reflexivity|]. split; [exact Hr|apply undisturbed_refl].
    - destruct (initialize_simulation_says cf R pr chain issuer serial ski RF sup c MF w l i Hr Ag (se_init _ _ SE) Hsim) as (r & cs & w' & l' & E & R' & U & X).
      do 3 eexists. split; [exact E|]. destruct X as [(_ & -> & -> & _)|(_ & -> & w1 & U1 & _ & X)]; [left|right].
      + split; [reflexivity|]. exists w'. auto.
      + left. split; [reflexivity|]. exists w1, w'. destruct X as [X|[X|X]]; [| |exact X]; exfalso.
        * destruct U1 as ((_ & _ & G & _) & _). apply X. unfold supports in *. rewrite G. exact F1.
        * apply (se_room _ _ SE). intros j y Hy I. destruct U1 as (_ & _ & P). destruct (P j y Hy) as (y' & Hy' & _ & Q). apply (Q ltac:(unfold live; tauto)). exact (X j y' Hy').
    - rewrite (Hx (or_introl eq_refl)) in *. destruct (settled_alone _ _ SE) as (j & Nj & Aj).
      destruct (rotate_says cf R pr chain issuer serial ski RF sup c MF w SimAutoInitLocality i j Hr Ul F2 Nj Aj) as (r & cs & w' & E & S & R' & X).
      do 3 eexists. split; [exact E|]. destruct X as [-> |(-> & X)]; [left|right].
      + split; [reflexivity|]. exists w'. rewrite S. split; [reflexivity|]. split; [exact Hr|apply undisturbed_refl].
      + left. split; [reflexivity|]. eauto.
    - rewrite (Hx (or_intror eq_refl)) in *. destruct (settled_alone _ _ SE) as (j & (y & Hy & Ay & Ly & _) & _).
      destruct (rotate_sim_says cf R pr chain issuer serial ski RF sup c MF w SimAutoInitLocality i Hr Ul Hsim F2) as (r & cs & w' & E & R' & X).
      do 3 eexists. split; [exact E|]. destruct X as [(-> & _ & X)|(w1 & h & idx & old & _ & _ & _ & _ & _ & _ & [(-> & _ & X)|[(_ & -> & X)|(X & _)]])].
      + right. left. split; [auto|]. destruct X as [X|[X|X]]; [destruct (X F1)|destruct (se_room _ _ SE X)|eauto].
      + right. left. split; [auto|]. eauto.
      + left. split; [reflexivity|]. exists w'. auto.
      + exfalso. apply X. exists j, y. auto.
    - destruct (invalid_says cf R pr chain issuer serial ski RF sup c MF w l i Hr Ul Hsim F2) as (r & cs & w' & E & R' & X);
        [intros j; apply (settled_handles _ _ _ _ _ SE); discriminate|].
      do 3 eexists. split; [exact E|]. destruct X as [(-> & _ & X)|(h & w1 & Ei & [(_ & -> & U)|(-> & X)])].
      + right. left. split; [reflexivity|]. destruct X as [X|[X|X]]; [destruct (X F1)|destruct (se_room _ _ SE X)|eauto].
      + left. split; [reflexivity|]. exists w'. auto.
      + right. right. split; [reflexivity|]. split; [exact X|eauto].
    - rewrite (wrong_locality_passes cf R pr chain issuer serial ski RF c MF w l i Hr F2).
      + do 3 eexists. split; [reflexivity|]. left. split; [reflexivity|]. exists w. split; [reflexivity|]. split; [exact Hr|apply undisturbed_refl].
      + apply (settled_elsewhere _ _ _ SE). destruct Hl as [-> | ->]; discriminate.
  Qed.

  Lemma all_run xs : forall w l i, settled cf (w_st w) -> features (w_st w) -> (l = SimAutoInitLocality \/ l = SimOtherLocality) ->
    in_order l xs -> Forall (fun x => has_support_needed sup x = true) xs ->
    exists os b', run_cases device send sup c xs (at_ w l i) = (os, b') /\
      ((os = map (fun _ => Ran []) xs /\ exists w' l', b' = at_ w' l' i /\ reachable cf (w_st w') /\ undisturbed (w_st w) (w_st w')) \/
       (exists ys x zs cs os', xs = ys ++ x :: zs /\ os = map (fun _ => Ran []) ys ++ Ran cs :: os' /\ bad_luck x cs)).
  Proof.
    induction xs as [|x xs IH]; intros w l i SE F Hl O A; cbn [run_cases].
    { do 2 eexists. split; [reflexivity|]. left. split; [reflexivity|]. exists w, l. split; [reflexivity|]. split; [apply SE|apply undisturbed_refl]. }
    destruct O as (Rv & Hx & O). inversion A as [|? ? A1 A2]; subst.
    rewrite A1. destruct (step x w l i SE F Rv Hl Hx) as (r & cs & b' & E & [(-> & w' & -> & R' & U)|B]); rewrite E; clear E.
    - cbn [existsb]. destruct (IH w' (after x l) i) as (os & b2 & E2 & X).
      + eapply settled_undisturbed; eassumption.
      + destruct U as ((_ & _ & G & _) & _). unfold features, supports in *. rewrite G. exact F.
      + destruct x; cbn [after]; auto.
      + exact O.
      + exact A2.
      + rewrite E2. do 2 eexists. split; [reflexivity|]. destruct X as [(-> & w2 & l2 & -> & R2 & U2)|(ys & y & zs & cs & os' & -> & -> & B)].
        * left. split; [reflexivity|]. exists w2, l2. split; [reflexivity|]. split; [exact R2|]. eapply undisturbed_trans; eassumption.
        * right. exists (x :: ys), y, zs, cs, os'. split; [reflexivity|]. split; [reflexivity|exact B].
    - destruct (existsb is_crash cs).
      + do 2 eexists. split; [reflexivity|]. right. exists [], x, xs, cs, []. auto.
      + destruct (run_cases device send sup c xs b') as [os b2]. do 2 eexists. split; [reflexivity|]. right. exists [], x, xs, cs, os. auto.
  Qed.

End Run.

Section Target.
  Variable cf : config.
  Variable R : Type.
  Variable pr : primitives R.
  Variables chain issuer serial ski : bytes.
  Hypothesis RF : reference cf pr (backend_digest (prof cf)) chain issuer serial ski.
  Notation send := (sim_send cf R pr chain issuer serial ski).
  Notation device := (option (world (rust_c R) unit)).

  Lemma on_target sup k seed xs : suits cf k ->
    exists w c, sim_start cf R pr chain issuer serial ski (power_on_args sup) seed = (Ok tt, w) /\ made_for cf c /\
      run_target device send sup xs (Some w) = Some (run_cases device send sup c xs (at_ w SimAutoInitLocality false)) /\
      reachable cf (w_st w) /\ (forall i, supports (w_st w) i <-> asked (power_on_args sup) i = true) /\
      st_support (w_st w) = to_flags (not_symmetric sup) /\
      if gs_auto_init sup
      then exists fl, auto_initialised cf (to_flags (not_symmetric sup)) fl 0 0 (repeat 0 (tci_size cf)) (repeat 0 (tci_size cf)) (w_st w)
      else exists fl, w_st w = state_new cf (to_flags (not_symmetric sup)) fl.
  Proof.
    intros Su. pose proof (rf_config _ _ _ _ _ _ _ RF) as Hcf.
    destruct (C50_start cf R pr chain issuer serial ski (power_on_args sup) seed Hcf) as (w & E & Hr & Hs & _ & X).
    assert (Hk : kind_for (own_profile cf) = Some k) by (rewrite <- (su_profile _ _ Su); destruct k; reflexivity).
    pose proof (su_profile _ _ Su) as Hp.
    assert (HC : chain_fits chain) by (apply RF). assert (HF := rf_fuel _ _ _ _ _ _ _ RF). assert (HI := Hissuer cf R pr chain issuer serial ski RF).
    assert (S : st_support (w_st w) = to_flags (not_symmetric sup)).
    { rewrite <- power_flags. apply N.bits_inj. intros i. rewrite sim_support_bits. specialize (Hs i). unfold supports in Hs.
      destruct (N.testbit (st_support (w_st w)) i), (asked (power_on_args sup) i); try reflexivity; [symmetry|]; apply Hs; reflexivity. }
    exists w. eexists. split; [exact E|]. split.
    2:{ split; [|split; [exact Hr|]; split; [exact Hs|]; split; [exact S|]].
        - unfold run_target. rewrite (profile_told cf Hcf R pr chain issuer serial ski HC HF HI) by (assumption || reflexivity). rewrite Hk.
          rewrite (new_told cf Hcf R pr chain issuer serial ski HC HF HI) by (assumption || reflexivity). rewrite (proj2 (N.eqb_eq _ _) Hp). reflexivity.
        - change (gs_auto_init sup) with (sa_auto_init (power_on_args sup)). rewrite power_flags in X. destruct (sa_auto_init (power_on_args sup)); eexists; exact X. }
    split; [exact Su|]. split; reflexivity.
  Qed.
End Target.
