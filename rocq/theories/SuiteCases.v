(** SuiteCases.v -- what each test of the verification suite reports: proofs. *)
From Verif Require Import Base Errors Types StateOps Env Wire Instance Commands RespBuf Response X509 X509Cert RustCrypto DefaultPlatform Simulator GoClient Suite ClientSpec
  Lib Spec Exec Effects Forest History WireSpec Contract Codec Steps Reach CommandSpecs Responses Execute Walk Measure Reasons Explain Avail X509Spec X509Cmd X509Facts
  X509Fit X509Fail X509Sane PlatformProofs RustProofs Trace TraceCmds TraceRust RefFaults Props_Commands Props_Avail Props_Reference Props_Size Props_Fail Props_Calls
  Props_Handles Props_Tree Props_Harness SimulatorProofs Props_Simulator ClientProofs ClientChain Props_Client SuiteProofs.
Local Open Scope N_scope.

Section State.
  Variable cf : config.
  Hypothesis Hcf : config_ok cf.

  Lemma slot_64 s i x : wf cf s -> at_slot s i x -> (i < 64)%nat.
  Proof. intros W H. apply at_lt in H. rewrite (fo_size _ _ (wf_forest _ _ W)) in H. destruct Hcf as ([_ ?] & _). lia. Qed.

  (** A root without children disappears alone. *)
  Lemma doomed_alone s t x : wf cf s -> at_slot s t x -> c_parent x = ROOT -> c_children x = 0 -> forall j, doomed s t j -> j = t.
  Proof.
    intros W A P C. induction 1 as [|p j _ IH (y & Y1 & Y2 & Y3)|j y kk Y1 Y2 (z & Z1 & Z2 & Z3) _ IH]; [reflexivity| |].
    - exfalso. assert (Y4 : c_parent y = t) by congruence. clear Y3 IH. assert (N : c_parent y <> ROOT).
      { rewrite Y4. apply (slot_64 _ _ _ W) in A. unfold ROOT. lia. }
      destruct (fo_up _ _ (wf_forest _ _ W) _ _ Y1 Y2 N) as (q & Q1 & _ & Q3). rewrite Y4 in Q1. unfold at_slot in *. rewrite A in Q1. injection Q1 as <-.
      rewrite C in Q3. unfold has_bit in Q3. rewrite N.bits_0 in Q3. discriminate.
    - exfalso. assert (kk = t) by (apply IH; exists z; auto). subst kk. unfold at_slot in *. rewrite A in Z1. injection Z1 as <-.
      apply (slot_64 _ _ _ W) in Y1. rewrite P in Z3. unfold ROOT in Z3. lia.
  Qed.

  Definition destroyed (s : state) (t : nat) (s' : state) : Prop :=
    same_globals s s' /\ length (st_contexts s') = length (st_contexts s) /\
    forall j x, at_slot s j x -> exists x', at_slot s' j x' /\
      (doomed s t j -> blank cf x' /\ c_handle x' = repeat 255%N 16) /\
      (~ doomed s t j -> same_but_children x x' /\
         forall y, has_bit (c_children x') y <-> has_bit (c_children x) y /\ ~ doomed s t y).

  Lemma destroy_alone s t x s' : wf cf s -> at_slot s t x -> c_parent x = ROOT -> c_children x = 0 -> destroyed s t s' ->
    (exists x', at_slot s' t x' /\ ~ live x') /\ forall j y, j <> t -> at_slot s j y -> at_slot s' j y.
  Proof.
    intros W A P C (_ & _ & H). pose proof (doomed_alone s t x W A P C) as DA. split.
    - destruct (H t x A) as (x' & A' & B & _). exists x'. split; [exact A'|]. destruct (B (doomed_target _ _)) as [[B1 _] _]. intros L. apply L, B1.
    - intros j y Nj Y. destruct (H j y Y) as (y' & Y' & _ & D). destruct D as [SB D]; [intros Q; apply Nj, DA, Q|].
      assert (EC : c_children y' = c_children y).
      { apply N.bits_inj. intros b. specialize (D (N.to_nat b)). unfold has_bit in D. rewrite N2Nat.id in D.
        destruct (N.testbit (c_children y) b) eqn:E1; destruct (N.testbit (c_children y') b) eqn:E2; try reflexivity.
        - exfalso. assert (false = true); [|discriminate]. apply D. split; [reflexivity|]. intros Q. apply DA in Q.
          destruct (fo_down _ _ (wf_forest _ _ W) j y t Y) as [_ (z & Z1 & _ & Z3)].
          { unfold has_bit. rewrite <- Q, N2Nat.id. exact E1. }
          unfold at_slot in *. rewrite A in Z1. injection Z1 as <-. apply (slot_64 _ _ _ W) in Y. rewrite P in Z3. unfold ROOT in Z3. lia.
        - exfalso. assert (false = true); [|discriminate]. apply D. reflexivity. }
      assert (y' = y); [|subst; exact Y'].
      unfold same_but_children in SB. destruct y, y'; cbn in *. intuition congruence.
  Qed.

  (** A simulation context came, and went. *)
  Lemma came_and_went s idx old x s' : wf cf (put_ctx s idx x) -> at_slot s idx old -> c_state old = Inactive -> c_parent x = ROOT -> c_children x = 0 ->
    destroyed (put_ctx s idx x) idx s' -> undisturbed s s'.
  Proof.
    intros W O I P C D. assert (A : at_slot (put_ctx s idx x) idx x) by (eapply at_put_same; eassumption).
    destruct (destroy_alone _ _ _ _ W A P C D) as [(x' & A' & L') H]. destruct D as (G & L & _). split; [exact G|]. split.
    { rewrite L. unfold put_ctx, set_contexts. cbn [st_contexts]. apply length_upd. }
    intros j y Y. destruct (Nat.eq_dec j idx) as [->|N].
    - exists x'. split; [exact A'|]. split; [|intros _; exact L']. intros Q. exfalso. unfold at_slot in *. rewrite O in Y. injection Y as <-. apply Q, I.
    - exists y. split; [|auto]. apply H; [exact N|]. apply at_put_other; [congruence|exact Y].
  Qed.
End State.

Arguments at_ {R} w l i.
Lemma zeros_byte_string n : byte_string n (repeat 0 n).
Proof. split; [apply repeat_length|]. apply Forall_forall. intros x Hx. apply repeat_spec in Hx. subst; reflexivity. Qed.

(** A bit of a flag word that is written as a power of two. *)
Lemma bit_31 i : N.testbit (2 ^ 31) i = N.eqb 31 i. Proof. apply N.pow2_bits_eqb. Qed.
Lemma bit_30 i : N.testbit (2 ^ 30) i = N.eqb 30 i. Proof. apply N.pow2_bits_eqb. Qed.

Section Tests.
  Variable cf : config.
  Variable R : Type.
  Variable pr : primitives R.
  Variables chain issuer serial ski : bytes.
  Notation dig := (backend_digest (prof cf)).
  Hypothesis RF : reference cf pr dig chain issuer serial ski.
  Notation ops := (sim_ops cf R pr).
  Notation plat := (sim_platform chain issuer serial ski).
  Notation send := (sim_send cf R pr chain issuer serial ski).
  Notation runs := (runs_to cf R pr chain issuer serial ski).
  Notation device := (option (world (rust_c R) unit)).
  Variable sup : go_support.
  Variable c : go_client.
  Hypothesis MF : made_for cf c.
  Notation call := (Suite.call device send c).
  Notation k := (cl_kind c).
  Notation must_fail := (Suite.must_fail device send c).
  Notation andthen := (Suite.andthen device).

  Let Hcf : config_ok cf := rf_config _ _ _ _ _ _ _ RF.
  Let Hchain : chain_fits chain := proj1 (rf_artifacts _ _ _ _ _ _ _ RF).
  Let Hfuel : (length chain < 2048 * (fuel cf - 1))%nat := rf_fuel _ _ _ _ _ _ _ RF.
  Let Hissuer := Hissuer cf R pr chain issuer serial ski RF.
  Let init := init_live cf R pr chain issuer serial ski RF c MF.
  Let rotate := rotate_live cf R pr chain issuer serial ski RF c MF.
  Let destroy := destroy_live cf R pr chain issuer serial ski RF c MF.
  Let refused := refused_live cf R pr chain issuer serial ski RF c MF.

  Lemma must_fail_status q sts l1 l2 b e b' :
    call q b = (Some (GoErr (GoStatus e)), [], b') ->
    must_fail q sts l1 l2 b = (Some tt, if existsb (N.eqb e) sts then [] else [Failed l2], b').
  Proof.
    intros E. unfold Suite.must_fail. rewrite (then_step _ _ _ _ _ E). change (existsb (is_status (GoStatus e)) sts) with (existsb (N.eqb e) sts).
    destruct (existsb (N.eqb e) sts); reflexivity.
  Qed.
  Lemma must_fail_fatal_status q sts l1 l2 b e b' :
    call q b = (Some (GoErr (GoStatus e)), [], b') ->
    must_fail_fatal device send c q sts l1 l2 b = if existsb (N.eqb e) sts then (Some tt, [], b') else (None, [Stopped l2], b').
  Proof.
    intros E. unfold Suite.must_fail_fatal. rewrite (then_step _ _ _ _ _ E). change (existsb (is_status (GoStatus e)) sts) with (existsb (N.eqb e) sts).
    destruct (existsb (N.eqb e) sts); reflexivity.
  Qed.
  Lemma must_fail_given q sts l1 l2 b v b' :
    call q b = (Some (GoOk v), [], b') -> must_fail q sts l1 l2 b = (Some tt, [Failed l1], b').
  Proof. intros E. unfold Suite.must_fail. rewrite (then_step _ _ _ _ _ E). reflexivity. Qed.

  (** *** GetProfile *)
  Lemma profile_call w l i : reachable cf (w_st w) -> u32 l ->
    call GcGetProfile (at_ w l i) =
    (Some (GoOk (VProfile (own_profile cf) 0 13 0 0 (N.of_nat (max_handles cf)) (st_support (w_st w)))), [], at_ w l i).
  Proof.
    intros Hr Ul. unfold Suite.call, at_. cbn [bn_device bn_locality go_do].
    rewrite (profile_told cf Hcf R pr chain issuer serial ski Hchain Hfuel Hissuer l w Hr Ul). reflexivity.
  Qed.
  Lemma transport_call line w l i : reachable cf (w_st w) -> u32 l ->
    transport_profile device send c line (at_ w l i) = (Some (own_profile cf), [], at_ w l i).
  Proof. intros Hr Ul. unfold transport_profile. rewrite (then_step _ _ _ _ _ (profile_call w l i Hr Ul)). reflexivity. Qed.
  Lemma own_digest : profile_digest_size (own_profile cf) = label_size k.
  Proof. rewrite <- (su_profile _ _ (proj1 MF)). generalize (cl_kind c). clear. intros []; reflexivity. Qed.
  Lemma own_data : profile_sign_data_size (own_profile cf) = message_size k.
  Proof. rewrite <- (su_profile _ _ (proj1 MF)). generalize (cl_kind c). clear. intros []; reflexivity. Qed.

  Definition profile_complaints (s : state) : list complaint :=
    (if Nat.eqb (max_handles cf) 64 then [] else [Failed 36]) ++
    (if Nat.ltb (max_handles cf) 8 then [Failed 39] else []) ++
    (if N.eqb (st_support s) (to_flags sup) then [] else [Failed 42]).
  Lemma in_localities m w i l r1 b1 : m (at_ w SimAutoInitLocality i) = (Some tt, r1, b1) ->
    for_localities device m (at_ w l i) = (let '(r, l2, b2) := m (set_locality device SimOtherLocality b1) in (r, r1 ++ l2, b2)).
  Proof.
    intros E. unfold for_localities. rewrite (then_step _ _ _ tt (at_ w SimAutoInitLocality i)) by reflexivity.
    rewrite (then_some _ _ _ _ _ _ E). rewrite (then_step _ _ _ tt (set_locality device SimOtherLocality b1)) by reflexivity. reflexivity.
  Qed.
  Lemma profile_once w l i : reachable cf (w_st w) -> u32 l ->
    profile_body device send sup c (at_ w l i) = (Some tt, profile_complaints (w_st w), at_ w l i).
  Proof.
    intros Hr Ul.
    assert (E64 : N.eqb (N.of_nat (max_handles cf)) SimMaxTCINodes = Nat.eqb (max_handles cf) 64).
    { destruct (Nat.eqb_spec (max_handles cf) 64) as [->|N]; [reflexivity|]. apply N.eqb_neq. unfold SimMaxTCINodes. lia. }
    assert (E8 : N.ltb (N.of_nat (max_handles cf)) 8 = Nat.ltb (max_handles cf) 8).
    { destruct (Nat.ltb_spec (max_handles cf) 8); [apply N.ltb_lt|apply N.ltb_ge]; lia. }
    unfold profile_body. rewrite (then_step _ _ _ _ _ (profile_call w l i Hr Ul)). cbv beta iota. rewrite E64, E8.
    unfold profile_complaints.
    destruct (Nat.eqb (max_handles cf) 64), (Nat.ltb (max_handles cf) 8), (N.eqb (st_support (w_st w)) (to_flags sup)); reflexivity.
  Qed.
  Lemma get_profile_says w l i : reachable cf (w_st w) ->
    test_get_profile device send sup c (at_ w l i) =
    (Some tt, profile_complaints (w_st w) ++ profile_complaints (w_st w), at_ w SimOtherLocality i).
  Proof.
    intros Hr. unfold test_get_profile. rewrite (in_localities _ _ _ _ _ _ (profile_once w SimAutoInitLocality i Hr eq_refl)).
    change (set_locality device SimOtherLocality (at_ w SimAutoInitLocality i)) with (at_ w SimOtherLocality i).
    rewrite profile_once by first [exact Hr|reflexivity]. reflexivity.
  Qed.

  (** *** Rotation *)
  Lemma names_fresh s idx x h l : (forall y, In y (st_contexts s) -> c_handle y <> h) -> (idx < length (st_contexts s))%nat ->
    c_state x = Active -> c_locality x = l -> c_handle x = h -> 
    first_slot (names (put_ctx s idx x) h l) idx.
  Proof.
    intros F L A1 A2 A3. split.
    - exists x. split; [apply at_put_iff; auto|auto].
    - intros j Lj (y & Y & _ & _ & Eh). apply at_put_iff in Y as [(Q & _)|(_ & Y)]; [lia|]. eapply F; [eapply nth_error_In; exact Y|exact Eh].
  Qed.
  Lemma first_unique (Q : nat -> Prop) a b : first_slot Q a -> first_slot Q b -> a = b.
  Proof. intros [A1 A2] [B1 B2]. destruct (Nat.lt_trichotomy a b) as [H|[H|H]]; [destruct (B2 _ H A1)|exact H|destruct (A2 _ H B1)]. Qed.
  Lemma resp_inj a b : new_handle_resp_bytes cf a = new_handle_resp_bytes cf b -> a = b.
  Proof. unfold new_handle_resp_bytes. apply app_inv_head. Qed.
  Lemma put_put s i a b : put_ctx (put_ctx s i a) i b = put_ctx s i b.
  Proof.
    unfold put_ctx, set_contexts. cbn [st_contexts st_marker st_version st_support st_flags st_init st_reserved]. f_equal.
    generalize (st_contexts s). intros l. revert i. induction l as [|x l IH]; intros [|i]; cbn [upd]; congruence.
  Qed.
  Lemma put_same s i a : at_slot s i a -> put_ctx s i a = s.
  Proof.
    unfold put_ctx, set_contexts, at_slot. destruct s as [m v l su fl it rs]. cbn [st_contexts st_marker st_version st_support st_flags st_init st_reserved].
    intros H. f_equal. revert i H. induction l as [|x l IH]; intros [|i] H; cbn [upd nth_error] in *; try congruence. f_equal. apply IH, H.
  Qed.

  Definition alone (s : state) (l : N) (j : nat) : Prop :=
    forall i x, at_slot s i x -> c_state x = Active -> c_locality x = l -> i = j.

  Lemma rotate_says w l i j : reachable cf (w_st w) -> u32 l -> supports (w_st w) ROTATE_CONTEXT ->
    names (w_st w) (repeat 0 16) l j -> alone (w_st w) l j ->
    exists r cs w', test_rotate device send sup c (at_ w l i) = (r, cs, at_ w' l i) /\ w_st w' = w_st w /\ reachable cf (w_st w') /\
      (cs = [] \/ (cs = [Stopped 20] /\ eight_draws cf pr dig w w')).
  Proof.
    intros Hr Ul Hs Nj Al. unfold test_rotate, initial_handle. rewrite (then_step _ _ _ DefaultContextHandle (at_ w l i)) by reflexivity.
    destruct (rotate DefaultContextHandle 0 w l i Hr Ul (zeros_byte_string 16) eq_refl) as (v & w1 & E & Hr1 & [(e & -> & S1 & X)|(nh & -> & L1 & A1 & D)]).
    - exists None, [Stopped 20], w1. split; [|split; [exact S1|split; [exact Hr1|right; split; [reflexivity|]]]].
      + apply then_none. unfold must_handle. rewrite (then_step _ _ _ _ _ E). reflexivity.
      + destruct X as [(_ & X)|[(X & _)|[(_ & X & _)|(_ & _ & X)]]]; [destruct (X Hs)|destruct (X j Nj)|discriminate|exact X].
    - destruct D as (idx & x & nh' & _ & F & Ax & S1 & Eb & D). apply resp_inj in Eb. subst nh'.
      destruct D as [(Q & _)|(_ & G)]; [discriminate|].
      pose proof F as [(x' & Ax' & X1 & X2 & X3) _]. assert (x' = x) by (unfold at_slot in *; congruence). subst x'.
      assert (idx = j) by (eapply Al; eassumption). subst idx.
      rewrite (then_step _ _ _ nh (at_ w1 l i)); [|unfold must_handle; rewrite (then_step _ _ _ _ _ E); reflexivity].
      assert (ND : nh <> DefaultContextHandle) by apply G.
      rewrite (proj2 (same_handle_neq nh DefaultContextHandle) ND). cbn [negb check]. rewrite (then_step _ _ _ tt (at_ w1 l i)) by reflexivity.
      assert (F1 : first_slot (names (w_st w1) nh l) j).
      { rewrite S1. apply names_fresh; [apply G|eapply at_lt; eassumption|assumption..|reflexivity]. }
      assert (Al1 : forall i0 y, at_slot (w_st w1) i0 y -> c_state y = Active -> c_locality y = l -> i0 = j /\ c_handle y = nh).
      { intros i0 y Y Y1 Y2. rewrite S1 in Y. apply at_put_iff in Y as [(<- & _ & ->)|(N & Y)]; [split; reflexivity|]. destruct N. symmetry. eapply Al; eassumption. }
      assert (Hs1 : supports (w_st w1) ROTATE_CONTEXT) by (rewrite S1; exact Hs).
      destruct (rotate nh TargetIsDefault w1 l i Hr1 Ul (conj L1 A1) eq_refl) as (v & w2 & E2 & Hr2 & [(e & -> & S2 & X)|(nh2 & -> & L2 & A2 & D2)]).
      { exfalso. destruct X as [(_ & X)|[(X & _)|[(_ & _ & t & i0 & y & Ft & Y & Y1 & Y2 & Y3)|(X & _)]]].
        - apply X, Hs1. - apply (X j), F1.
        - destruct (Al1 _ _ Y Y1 Y2) as [-> Eh]. rewrite (first_unique _ _ _ Ft F1) in Y3. destruct Y3 as [Y3|Y3]; [apply ND; rewrite <- Eh; exact Y3|congruence].
        - discriminate. }
      destruct D2 as (idx & y & nh' & _ & F2 & Ay & S2 & Eb & D2). apply resp_inj in Eb. subst nh'.
      destruct D2 as [(_ & -> & _)|(Q & _)]; [|discriminate].
      rewrite (first_unique _ _ _ F2 F1) in *. clear idx F2.
      assert (Ss : w_st w2 = w_st w).
      { rewrite S2. rewrite S1 in *. assert (y = set_handle nh x).
        { apply at_put_iff in Ay as [(_ & _ & ->)|(N & _)]; [reflexivity|congruence]. }
        subst y. rewrite put_put. rewrite <- (put_same (w_st w) j x Ax) at 2. f_equal. destruct x; cbn in *. subst. reflexivity. }
      rewrite (then_step _ _ _ default_handle (at_ w2 l i)); [|unfold must_handle; rewrite (then_step _ _ _ _ _ E2); reflexivity].
      rewrite (proj2 (same_handle_eq default_handle DefaultContextHandle) eq_refl). cbn [check]. rewrite (then_step _ _ _ tt (at_ w2 l i)) by reflexivity.
      destruct (rotate default_handle TargetIsDefault w2 l i Hr2 Ul (zeros_byte_string 16) eq_refl) as (v & w3 & E3 & Hr3 & [(e & -> & S3 & X)|(nh2 & -> & _ & _ & D3)]).
      + rewrite (must_fail_fatal_status _ _ _ _ _ _ _ E3). assert (e = InvalidArgument).
        { destruct X as [(_ & X)|[(X & _)|[(X & _)|(X & _)]]]; [|rewrite Ss in X; destruct (X j Nj)|exact X|discriminate]. rewrite Ss in X. destruct (X Hs). }
        subst e. exists (Some tt), [], w3. split; [reflexivity|]. split; [congruence|]. split; [exact Hr3|left; reflexivity].
      + exfalso. destruct D3 as (idx & z & nh' & _ & _ & _ & _ & _ & [(_ & _ & X & _)|(Q & _)]); [|discriminate]. rewrite Ss in X. exact (X j Nj).
  Qed.

  (** Another active context in the locality: the second rotation fails, and the default
      context has lost its handle. *)
  Lemma rotate_not_alone w l i j j' x' : reachable cf (w_st w) -> u32 l -> supports (w_st w) ROTATE_CONTEXT ->
    first_slot (names (w_st w) (repeat 0 16) l) j -> at_slot (w_st w) j' x' -> c_state x' = Active -> c_locality x' = l -> j' <> j ->
    exists cs w', test_rotate device send sup c (at_ w l i) = (None, cs, at_ w' l i) /\ reachable cf (w_st w') /\
      ((cs = [Stopped 20] /\ w_st w' = w_st w /\ eight_draws cf pr dig w w') \/
       (cs = [Stopped 30] /\ exists x h, at_slot (w_st w) j x /\ h <> repeat 0 16 /\ w_st w' = put_ctx (w_st w) j (set_handle h x))).
  Proof.
    intros Hr Ul Hs Nj Ax' X1' X2' Nej. pose proof Nj as [Nj0 _]. unfold test_rotate, initial_handle. rewrite (then_step _ _ _ DefaultContextHandle (at_ w l i)) by reflexivity.
    destruct (rotate DefaultContextHandle 0 w l i Hr Ul (zeros_byte_string 16) eq_refl) as (v & w1 & E & Hr1 & [(e & -> & S1 & X)|(nh & -> & L1 & A1 & D)]).
    - exists [Stopped 20], w1. split; [|split; [exact Hr1|left; split; [reflexivity|split; [exact S1|]]]].
      + apply then_none. unfold must_handle. rewrite (then_step _ _ _ _ _ E). reflexivity.
      + destruct X as [(_ & X)|[(X & _)|[(_ & X & _)|(_ & _ & X)]]]; [destruct (X Hs)|destruct (X j Nj0)|discriminate|exact X].
    - destruct D as (idx & x & nh' & _ & F & Ax & S1 & Eb & D). apply resp_inj in Eb. subst nh'.
      destruct D as [(Q & _)|(_ & G)]; [discriminate|].
      assert (idx = j) by (eapply first_unique; eassumption). subst idx.
      pose proof F as [(x0 & Ax0 & X1 & X2 & X3) _]. assert (x0 = x) by (unfold at_slot in *; congruence). subst x0.
      rewrite (then_step _ _ _ nh (at_ w1 l i)); [|unfold must_handle; rewrite (then_step _ _ _ _ _ E); reflexivity].
      assert (ND : nh <> DefaultContextHandle) by apply G.
      rewrite (proj2 (same_handle_neq nh DefaultContextHandle) ND). cbn [negb check]. rewrite (then_step _ _ _ tt (at_ w1 l i)) by reflexivity.
      assert (F1 : first_slot (names (w_st w1) nh l) j).
      { rewrite S1. apply names_fresh; [apply G|eapply at_lt; eassumption|assumption..|reflexivity]. }
      assert (Ax1 : at_slot (w_st w1) j' x') by (rewrite S1; apply at_put_other; [congruence|exact Ax']).
      destruct (rotate nh TargetIsDefault w1 l i Hr1 Ul (conj L1 A1) eq_refl) as (v & w2 & E2 & Hr2 & [(e & -> & S2 & X)|(nh2 & -> & L2 & A2 & D2)]).
      + exists [Stopped 30], w2. split; [|split; [exact Hr2|right; split; [reflexivity|exists x, nh; split; [exact Ax|split; [exact ND|congruence]]]]].
        apply then_none. unfold must_handle. rewrite (then_step _ _ _ _ _ E2). reflexivity.
      + exfalso. destruct D2 as (idx & y & nh' & _ & F2 & Ay & _ & _ & [(_ & _ & Q1 & Q2)|(Q & _)]); [|discriminate].
        pose proof (first_unique _ _ _ F2 F1) as ->. apply Nej. apply (Q2 j' x' Ax1 X1' X2'). intros Q. apply (Q1 j'). exists x'. auto.
  Qed.

  (** *** A simulation context *)
  Definition sim_context (l : N) (h : bytes) : context := init_context cf Simulation l h false.

  Lemma initial_sim w l i : reachable cf (w_st w) -> u32 l -> gs_simulation sup = true ->
    exists v w', call (GcInit InitIsSimulation) (at_ w l i) = (Some v, [], at_ w' l i) /\ reachable cf (w_st w') /\
      ((exists e, v = GoErr (GoStatus (get_error_code e)) /\ w_st w' = w_st w /\
          initial_handle device send sup c true (at_ w l i) = (None, [Stopped 86], at_ w' l i) /\
          ((e = ArgumentNotSupported /\ ~ supports (w_st w) SIMULATION) \/ (e = MaxTcis /\ Reasons.full (w_st w)) \/
           (e = InternalError HandleGenerationExhausted /\ eight_draws cf pr dig w w'))) \/
       (exists h idx old, v = given h /\ byte_string 16 h /\ gen_ok (w_st w) h /\ supports (w_st w) SIMULATION /\
          at_slot (w_st w) idx old /\ c_state old = Inactive /\ w_st w' = put_ctx (w_st w) idx (sim_context l h) /\
          initial_handle device send sup c true (at_ w l i) = (Some h, [], at_ w' l i))).
  Proof.
    intros Hr Ul Gs. destruct (init InitIsSimulation w l i Hr Ul eq_refl) as (v & w1 & E & Hr1 & [(e & -> & S1 & X)|(h & -> & L1 & A1 & D)]).
    - do 2 eexists. split; [exact E|]. split; [exact Hr1|]. left. exists e. split; [reflexivity|]. split; [exact S1|]. split.
      + unfold initial_handle. rewrite Gs. apply then_none. unfold must_handle. rewrite (then_step _ _ _ _ _ E). reflexivity.
      + destruct X as [(-> & [(Q & _)|(_ & Q)])|[(_ & Q)|[X|(_ & X)]]]; [discriminate|left; auto|discriminate|right; left; exact X|right; right; exact X].
    - do 2 eexists. split; [exact E|]. split; [exact Hr1|]. right.
      destruct D as (idx & h' & [(old & O1 & O2) _] & Eb & [(Q & _)|(_ & _ & Sp & G & S1)]); [discriminate|]. apply resp_inj in Eb. subst h'.
      exists h, idx, old. split; [reflexivity|]. split; [split; assumption|]. split; [exact G|]. split.
      { apply (sup_bit (w_st w) 31 true); [|reflexivity]. unfold sup_simulation in Sp. rewrite Sp. reflexivity. }
      split; [exact O1|]. split; [exact O2|]. split; [exact S1|].
      unfold initial_handle. rewrite Gs. rewrite (then_step _ _ _ h (at_ w1 l i)); [|unfold must_handle; rewrite (then_step _ _ _ _ _ E); reflexivity].
      assert (ND : h <> DefaultContextHandle) by apply G.
      rewrite (proj2 (same_handle_neq h DefaultContextHandle) ND). reflexivity.
  Qed.

  (** The deferred DestroyContext of a simulation context that is still as it was. *)
  Lemma destroy_sim s idx old h w l i : reachable cf (w_st w) -> u32 l -> byte_string 16 h ->
    at_slot s idx old -> c_state old = Inactive -> w_st w = put_ctx s idx (sim_context l h) -> (forall y, In y (st_contexts s) -> c_handle y <> h) ->
    exists w', ignore device send c (GcDestroy h) (at_ w l i) = (Some tt, [], at_ w' l i) /\ reachable cf (w_st w') /\ undisturbed s (w_st w').
  Proof.
    intros Hr Ul Uh O1 O2 S F.
    assert (F1 : first_slot (names (w_st w) h l) idx) by (rewrite S; apply names_fresh; [exact F|eapply at_lt; eassumption|reflexivity..]).
    destruct (destroy h w l i Hr Ul Uh) as (v & w1 & E & Hr1 & [(e & _ & _ & (Q & _))|(-> & t & Ft & D)]); [destruct (Q idx), F1; assumption|].
    pose proof (first_unique _ _ _ Ft F1) as ->.
    exists w1. split; [unfold ignore; rewrite (then_step _ _ _ _ _ E); reflexivity|]. split; [exact Hr1|].
    rewrite S in D. eapply (came_and_went cf Hcf s idx old (sim_context l h)); [|eassumption|eassumption|reflexivity|reflexivity|exact D].
    rewrite <- S. apply reachable_wf; assumption.
  Qed.

  Definition occupied (s : state) (l : N) : Prop := exists j x, at_slot s j x /\ c_state x = Active /\ c_locality x = l.

  (** TestRotateContextHandleSimulation. *)
  Lemma rotate_sim_says w l i : reachable cf (w_st w) -> u32 l -> gs_simulation sup = true -> supports (w_st w) ROTATE_CONTEXT ->
    exists r cs w', test_rotate_simulation device send sup c (at_ w l i) = (r, cs, at_ w' l i) /\ reachable cf (w_st w') /\
      ((cs = [Stopped 86] /\ w_st w' = w_st w /\
          (~ supports (w_st w) SIMULATION \/ Reasons.full (w_st w) \/ eight_draws cf pr dig w w')) \/
       (exists w1 h idx old, supports (w_st w) SIMULATION /\ byte_string 16 h /\ gen_ok (w_st w) h /\ at_slot (w_st w) idx old /\ c_state old = Inactive /\
          call (GcInit InitIsSimulation) (at_ w l i) = (Some (given h), [], at_ w1 l i) /\
          ((cs = [Stopped 58; Crashed] /\ w_st w' = put_ctx (w_st w) idx (sim_context l h) /\ eight_draws cf pr dig w1 w') \/
           (occupied (w_st w) l /\ cs = [] /\ undisturbed (w_st w) (w_st w')) \/
           (~ occupied (w_st w) l /\ cs = [Stopped 68] /\ w_st w' = put_ctx (w_st w) idx (sim_context l (repeat 0 16)))))).
  Proof.
    intros Hr Ul Gs Hs. unfold test_rotate_simulation.
    destruct (initial_sim w l i Hr Ul Gs) as (v & w1 & E & Hr1 & [(e & -> & S1 & Ei & X)|(h & idx & old & -> & Uh & G & Sp & O1 & O2 & S1 & Ei)]).
    { exists None, [Stopped 86], w1. split; [apply then_none; exact Ei|]. split; [exact Hr1|]. left. split; [reflexivity|]. split; [exact S1|]. intuition. }
    rewrite (then_step _ _ _ _ _ Ei).
    assert (Li : (idx < length (st_contexts (w_st w)))%nat) by (eapply at_lt; eassumption).
    assert (F1 : first_slot (names (w_st w1) h l) idx) by (rewrite S1; apply names_fresh; [apply G|exact Li|reflexivity..]).
    assert (Hs1 : supports (w_st w1) ROTATE_CONTEXT) by (rewrite S1; exact Hs).
    destruct (rotate h 0 w1 l i Hr1 Ul Uh eq_refl) as (v & w2 & E2 & Hr2 & [(e & -> & S2 & X)|(nh & -> & L2 & A2 & D)]).
    { rewrite (then_step _ _ _ _ _ E2). exists None, [Stopped 58; Crashed], w2. split; [reflexivity|]. split; [exact Hr2|]. right.
      exists w1, h, idx, old. do 6 (split; [assumption|]). left. split; [reflexivity|]. split; [congruence|].
      destruct X as [(_ & X)|[(X & _)|[(_ & X & _)|(_ & _ & X)]]]; [destruct (X Hs1)|destruct (X idx (proj1 F1))|discriminate|exact X]. }
    rewrite (then_step _ _ _ _ _ E2). unfold given.
    destruct D as (idx' & x & nh' & _ & F & Ax & S2 & Eb & [(Q & _)|(_ & G2)]); [discriminate|]. apply resp_inj in Eb. subst nh'.
    pose proof (first_unique _ _ _ F F1) as ->. clear F.
    assert (x = sim_context l h). { rewrite S1 in Ax. apply at_put_iff in Ax as [(_ & _ & ->)|(N & _)]; [reflexivity|congruence]. } subst x.
    assert (ND : nh <> DefaultContextHandle) by apply G2.
    assert (S2' : w_st w2 = put_ctx (w_st w) idx (sim_context l nh)) by (rewrite S2, S1, put_put; reflexivity). clear S2.
    assert (Fr : forall y, In y (st_contexts (w_st w)) -> y = old \/ c_handle y <> nh).
    { intros y Hy. apply In_nth_error in Hy as [jj Hj]. destruct (Nat.eq_dec jj idx) as [->|N]; [left; unfold at_slot in *; congruence|]. right.
      apply G2. rewrite S1. apply (nth_error_In _ jj). apply at_put_other; [congruence|exact Hj]. }
    assert (F2 : first_slot (names (w_st w2) nh l) idx).
    { split; [exists (sim_context l nh); rewrite S2'; split; [apply at_put_iff; auto|repeat split]|].
      intros j Lj (y & Y & _ & _ & Eh). rewrite S2' in Y. apply at_put_iff in Y as [(Q & _)|(_ & Y)]; [lia|].
      destruct (Fr y (nth_error_In _ _ Y)) as [->|Q]; [|exact (Q Eh)]. apply G2 with (c := old); [|exact Eh]. rewrite S1. apply (nth_error_In _ j). apply at_put_other; [lia|exact Y]. }
    rewrite (proj2 (same_handle_neq nh DefaultContextHandle) ND). cbn [negb check].
    destruct (rotate nh TargetIsDefault w2 l i Hr2 Ul (conj L2 A2) eq_refl) as (v & w3 & E3 & Hr3 & [(e & -> & S3 & X)|(nh2 & -> & _ & _ & D3)]).
    - assert (X' : e = InvalidArgument /\ occupied (w_st w) l).
      { destruct X as [(_ & X)|[(X & _)|[(-> & _ & t & i0 & y & Ft & Y & Y1 & Y2 & Y3)|(X & _)]]].
        - exfalso. apply X. rewrite S2'. exact Hs. - exfalso. apply (X idx), F2.
        - split; [reflexivity|]. pose proof (first_unique _ _ _ Ft F2) as ->. rewrite S2' in Y. apply at_put_iff in Y as [(<- & _ & ->)|(N & Y)].
          + exfalso. destruct Y3 as [Y3|Y3]; [exact (ND Y3)|congruence].
          + exists i0, y. auto.
        - discriminate. }
      destruct X' as [-> Oc].
      assert (Ed : exists w4, ignore device send c (GcDestroy nh) (at_ w3 l i) = (Some tt, [], at_ w4 l i) /\ reachable cf (w_st w4) /\ undisturbed (w_st w) (w_st w4)).
      { assert (F3 : first_slot (names (w_st w3) nh l) idx) by (rewrite S3; exact F2).
        destruct (destroy nh w3 l i Hr3 Ul (conj L2 A2)) as (v & w4 & E4 & Hr4 & [(e & _ & _ & (Q & _))|(-> & t & Ft & D)]); [destruct (Q idx), F3; assumption|].
        pose proof (first_unique _ _ _ Ft F3) as ->. exists w4. split; [unfold ignore; rewrite (then_step _ _ _ _ _ E4); reflexivity|]. split; [exact Hr4|].
        rewrite S3, S2' in D. eapply (came_and_went cf Hcf (w_st w) idx old (sim_context l nh)); [|eassumption|eassumption|reflexivity|reflexivity|exact D]. rewrite <- S2'. apply reachable_wf; assumption. }
      destruct Ed as (w4 & E4 & Hr4 & U4).
      exists (Some tt), [], w4. split.
      { unfold finally. rewrite (then_step _ _ _ tt (at_ w2 l i)) by reflexivity. rewrite (must_fail_fatal_status _ _ _ _ _ _ _ E3).
        change (existsb (N.eqb (get_error_code InvalidArgument)) [StatusInvalidArgument]) with true. cbv beta iota. rewrite E4. reflexivity. }
      split; [exact Hr4|]. right. exists w1, h, idx, old. do 6 (split; [assumption|]). right; left. auto.
    - destruct D3 as (idx' & y & nh' & _ & F3 & Ay & S3 & Eb & [(_ & -> & Q1 & Q2)|(Q & _)]); [|discriminate].
      pose proof (first_unique _ _ _ F3 F2) as ->.
      assert (y = sim_context l nh). { rewrite S2' in Ay. apply at_put_iff in Ay as [(_ & _ & ->)|(N & _)]; [reflexivity|congruence]. } subst y.
      rewrite S2', put_put in S3.
      assert (NO : ~ occupied (w_st w) l).
      { intros (j & z & Z & Z1 & Z2). assert (Nj : j <> idx) by (intros ->; unfold at_slot in *; congruence).
        assert (Z' : at_slot (w_st w2) j z) by (rewrite S2'; apply at_put_other; [congruence|exact Z]).
        apply Nj. apply (Q2 j z Z' Z1 Z2). intros Q. apply (Q1 j). exists z. auto. }
      assert (NN : forall j, ~ names (w_st w3) nh l j).
      { intros j (z & Z & Z1 & Z2 & Z3). rewrite S3 in Z. apply at_put_iff in Z as [(_ & _ & ->)|(Nj & Z)]; [exact (ND (eq_sym Z3))|]. apply NO. exists j, z. auto. }
      destruct (destroy nh w3 l i Hr3 Ul (conj L2 A2)) as (v & w4 & E4 & Hr4 & [(e & -> & -> & _)|(_ & t & Ft & _)]); [|destruct (NN t (proj1 Ft))].
      exists None, [Stopped 68], w3. split.
      { unfold finally. rewrite (then_step _ _ _ tt (at_ w2 l i)) by reflexivity. unfold must_fail_fatal. rewrite (then_step _ _ _ _ _ E3). cbn [given].
        unfold stopped. unfold ignore. rewrite (then_step _ _ _ _ _ E4). reflexivity. }
      split; [exact Hr3|]. right. exists w1, h, idx, old. do 6 (split; [assumption|]). right; right. split; [exact NO|]. split; [reflexivity|]. exact S3.
  Qed.
End Tests.
