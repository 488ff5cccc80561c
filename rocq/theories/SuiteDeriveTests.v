(** SuiteDeriveTests.v -- the tests of DeriveContext one by one: proofs. *)
From Coq Require Import Permutation.
From Verif Require Import Base Errors Types StateOps Env Wire Instance Commands RespBuf Response X509 X509Cert RustCrypto DefaultPlatform Simulator GoClient Suite ClientSpec
  Lib Spec Exec Effects Forest History WireSpec Contract Codec Steps Reach CommandSpecs Responses Execute Walk Measure Reasons Explain Avail X509Spec X509Cmd X509Facts
  X509Fit X509Fail X509Sane PlatformProofs RustProofs Trace TraceCmds TraceRust RefFaults Props_Commands Props_Avail Props_Reference Props_Size Props_Fail Props_Calls
  Props_Handles Props_Tree Props_Harness SimulatorProofs Props_Simulator ClientProofs ClientChain Props_Client SuiteProofs SuiteCases Denials SuiteNegative SuiteDerive SuiteDeriveLive SuiteDeriveState SuiteFollow SuiteDeriveCases.
Local Open Scope N_scope.

(** Is something about each entry of a short list true? *)
Ltac entry := unfold unnamed; cbn [snd fst born parent_after set_children set_handle set_tci c_state c_locality c_handle c_parent c_tci tci_type c_x509 c_recursive c_export]; intuition (try congruence; try discriminate; try lia).
Ltac entries := lazymatch goal with |- Forall _ _ => repeat (apply Forall_cons; [entry|]); try apply Forall_nil end.
Ltac no_option := lazymatch goal with |- ~ unsupported_option _ _ => unfold unsupported_option; intros X; vm_compute N.testbit in X; intuition (try discriminate; try contradiction) end.
Ltac sides := try eassumption; try solve [lazymatch goal with |- _ = _ => reflexivity | |- u32 _ => reflexivity | |- (_ < _)%nat => cbn [length]; lia | |- _ -> _ = _ => first [discriminate|reflexivity] | |- Forall _ _ => entries | |- ~ _ => no_option | |- byte_string 16 _ => apply (zeros_byte_string 16) | |- forall a, follows _ _ _ _ => intros; follow end].

Section Tests.
  Variable cf : config.
  Variable R : Type.
  Variable pr : primitives R.
  Variables chain issuer serial ski : bytes.
  Notation dig := (backend_digest (prof cf)).
  Hypothesis RF : reference cf pr dig chain issuer serial ski.
  Notation ops := (sim_ops cf R pr).
  Notation plat := (sim_platform chain issuer serial ski).
  Notation send := (sim_send cf R pr chain issuer serial ski).
  Notation device := (option (world (rust_c R) unit)).
  Variable sup : go_support.
  Variable c : go_client.
  Hypothesis MF : made_for cf c.
  Notation call := (Suite.call device send c).
  Notation k := (cl_kind c).
  Let Hcf : config_ok cf := rf_config _ _ _ _ _ _ _ RF.
  Notation fine := (fine device send c (unlucky_call cf R pr chain issuer serial ski c)).
  Notation vfine := (vfine device send c (unlucky_call cf R pr chain issuer serial ski c)).
  Notation derive_goes := (derive_goes cf R pr chain issuer serial ski RF c MF).
  Notation derive_stops := (derive_stops cf R pr chain issuer serial ski RF c MF).
  Notation destroy_goes := (destroy_goes cf R pr chain issuer serial ski RF c MF).
  Notation destroy_stops := (destroy_stops cf R pr chain issuer serial ski RF c MF).
  Let Uz := zeros_fine cf c MF.
  Let wfr s (H : reachable cf s) := reachable_wf cf Hcf s H.

  Lemma globals_trans a b d : same_globals a b -> same_globals b d -> same_globals a d.
  Proof. unfold same_globals. intuition congruence. Qed.

  (** A chain of retired contexts goes with its only leaf. *)
  Lemma retired_doomed s L q p px a : holds s L -> In (p, px) L -> c_state px = Retired -> child_of s p a -> doomed s q a ->
    Forall (fun e => c_parent (snd e) = p -> fst e = a) L -> doomed s q p.
  Proof.
    intros H I Rt C D U. eapply doomed_retired; [apply (ho_in _ _ H _ _ I)|exact Rt|exact C|]. intros j (y & Y1 & Y2 & Y3).
    rewrite Forall_forall in U. specialize (U (j, y) (ho_all _ _ H _ _ Y1 Y2) Y3). cbn [fst] in U. subst j. exact D.
  Qed.
  Lemma child_in s L p a x : holds s L -> In (a, x) L -> c_parent x = p -> child_of s p a.
  Proof. intros H I E. exists x. destruct (ho_in _ _ H _ _ I). auto. Qed.

  (** TestChangeLocality. *)
  Lemma change_locality_fine w l i p x : reachable cf (w_st w) -> u32 l -> lone (w_st w) l p x -> (3 <= max_handles cf)%nat ->
    fine (test_change_locality device send sup c) (at_ w l i) (fun _ b => exists w', b = at_ w' l i /\ reachable cf (w_st w') /\ same_globals (w_st w) (w_st w') /\ holds (w_st w') []).
  Proof.
    intros Hr Ul Lo M3. pose proof (lone_slot _ _ _ _ _ _ _ RF _ _ _ _ Hr Lo) as P64. destruct Lo as (H & A1 & A2 & A3 & A4).
    assert (RP : ROOT <> p) by (unfold ROOT; lia).
    unfold test_change_locality. apply fine_then; [unfold initial_handle; follow|intros; follow|]. eapply fine_is; [reflexivity|].
    apply fine_local. apply vfine_finally; [follow|intros; follow|].
    vstep. apply (profile_fine cf R pr chain issuer serial ski RF c); [exact Hr|exact Ul|].
    vstep. apply vfine_lift. eapply fine_is; [reflexivity|]. cbv zeta. cbn [bn_locality at_].
    set (other := (l + 1) mod 2 ^ 32). assert (Uo : u32 other) by (apply N.mod_lt; discriminate).
    vstep. apply vfine_lift. unfold must_derive.
    eapply (derive_goes (repeat 0 16) (SuiteDerive.zeros (own_profile cf)) ChangeLocality 0 other w l i p x []); sides.
    { cbv [N.testbit ChangeLocality]. split; [constructor|]. discriminate. }
    intros w1 ch1 ph1 (q1 & dg1 & Hr1 & Bc1 & Bp1 & G1 & Q64 & J1 & (C0 & C1) & Ph & _). vm_compute in Ph. eapply fine_is; [reflexivity|]. cbn [fst snd].
    assert (RQ : ROOT <> q1) by (unfold ROOT; lia). nodup J1.
    vstep. apply vfine_set. vstep. apply vfine_lift. eapply fine_is; [reflexivity|]. change (set_locality device other (at_ w1 l i)) with (at_ w1 other i).
    vstep. apply vfine_lift. unfold must_derive. apply holds_swap in J1.
    eapply derive_goes; sides.
    { split; [entries|discriminate]. }
    intros w2 ch2 ph2 (q2 & dg2 & Hr2 & Bc2 & Bp2 & G2 & Q64' & J2 & (D0 & D1) & _). eapply fine_is; [reflexivity|]. cbn [fst snd].
    vstep. apply vfine_set. apply vfine_lift. eapply fine_is; [reflexivity|]. change (set_locality device l (at_ w2 other i)) with (at_ w2 l i).
    unfold should. apply holds_swap in J2. nodup J2.
    eapply destroy_goes; sides.
    intros w3 Hr3 G3 D3. eapply fine_is; [reflexivity|]. exists w3. split; [reflexivity|]. split; [exact Hr3|]. split; [eapply globals_trans; [exact G1|eapply globals_trans; eassumption]|].
    eapply (destroy_everything cf); [apply wfr; exact Hr2|exact J2| |exact D3].
    assert (Dq : doomed (w_st w2) q2 q1).
    { eapply retired_doomed; [exact J2|right; left; reflexivity|reflexivity|eapply child_in; [exact J2|left; reflexivity|reflexivity]|constructor|]. entries. }
    intros a y [E|[E|[E|[]]]]; injection E as <- <-; [constructor|exact Dq|].
    eapply retired_doomed; [exact J2|right; right; left; reflexivity|reflexivity|eapply child_in; [exact J2|right; left; reflexivity|reflexivity]|exact Dq|]. entries.
  Qed.

  (** A lone context has no children. *)
  Lemma lone_children s l p x : reachable cf s -> lone s l p x -> c_children x = 0.
  Proof.
    intros Hr (H & _ & _ & _ & A4). pose proof (wfr s Hr) as W. pose proof (holds_head _ _ _ _ H) as [Hp _]. apply N.bits_inj. intros b. rewrite N.bits_0.
    destruct (N.testbit (c_children x) b) eqn:E; [|reflexivity]. exfalso.
    destruct (fo_down _ _ (wf_forest _ _ W) p x (N.to_nat b) Hp) as [_ (y & Y1 & Y2 & Y3)]; [unfold has_bit; rewrite N2Nat.id; exact E|].
    destruct (ho_all _ _ H _ _ Y1 Y2) as [Q|[]]. injection Q as Q1 <-. pose proof (slot_64 cf Hcf _ _ _ W Hp). rewrite A4 in Y3. unfold ROOT in Y3. lia.
  Qed.

  (** RotateContextHandle of one's own context. *)
  Lemma rotate_goes {A} h w l i p pc L (g : _ -> test device A) Q :
    reachable cf (w_st w) -> u32 l -> byte_string 16 h -> supports (w_st w) ROTATE_CONTEXT ->
    holds (w_st w) ((p, pc) :: L) -> c_state pc = Active -> c_locality pc = l -> c_handle pc = h -> Forall (unnamed h l) L ->
    (forall a, follows device send c (g a)) ->
    (forall w' nh, reachable cf (w_st w') -> same_globals (w_st w) (w_st w') -> byte_string 16 nh -> nh <> repeat 0 16 -> Forall (fun e => c_handle (snd e) <> nh) ((p, pc) :: L) ->
       holds (w_st w') ((p, set_handle nh pc) :: L) -> fine (g (given nh)) (at_ w' l i) Q) ->
    fine (andthen device (call (GcRotate h 0)) g) (at_ w l i) Q.
  Proof.
    intros Hr Ul Uh Sp H A1 A2 A3 UN FG K. pose proof (holds_sole _ _ _ _ _ _ H A1 A2 A3 UN) as F. pose proof (holds_head _ _ _ _ H) as [Hp _].
    destruct (rotate_live cf R pr chain issuer serial ski RF c MF h 0 w l i Hr Ul Uh eq_refl) as (v & w' & E & Hr' & [(e & -> & S & X)|(nh & -> & L1 & B1 & D)]).
    - apply (fine_call cf R pr chain issuer serial ski c _ _ _ _ _ _ E FG). left. destruct X as [(_ & X)|[(X & _)|[(_ & X & _)|(_ & _ & X)]]]; [contradiction|destruct (X p); apply F|discriminate|].
      do 6 eexists. split; [reflexivity|]. split; [reflexivity|]. split; [exact E|left; exact X].
    - apply (fine_call cf R pr chain issuer serial ski c _ _ _ _ _ _ E FG). right. destruct D as (p2 & pc2 & nh2 & _ & F2 & Hp2 & S & Eb & [(Q2 & _)|(_ & G)]); [discriminate|].
      apply resp_inj in Eb. subst nh2. pose proof (first_unique _ _ _ F2 F) as ->. assert (pc2 = pc) by (unfold at_slot in *; congruence). subst pc2.
      destruct (gen_free _ _ _ H G) as [G1 G2]. apply K; try assumption; [rewrite S; repeat split|split; assumption|]. rewrite S. eapply holds_put; [exact H|]. unfold live; cbn; congruence.
  Qed.
  Lemma rotate_back {A} h w l i p pc L (g : _ -> test device A) Q :
    reachable cf (w_st w) -> u32 l -> byte_string 16 h -> supports (w_st w) ROTATE_CONTEXT ->
    holds (w_st w) ((p, pc) :: L) -> c_state pc = Active -> c_locality pc = l -> c_handle pc = h -> h <> repeat 0 16 ->
    Forall (fun e => ~ (c_state (snd e) = Active /\ c_locality (snd e) = l)) L ->
    (forall a, follows device send c (g a)) ->
    (forall w', reachable cf (w_st w') -> same_globals (w_st w) (w_st w') -> holds (w_st w') ((p, set_handle (repeat 0 16) pc) :: L) -> fine (g (given (repeat 0 16))) (at_ w' l i) Q) ->
    fine (andthen device (call (GcRotate h TargetIsDefault)) g) (at_ w l i) Q.
  Proof.
    intros Hr Ul Uh Sp H A1 A2 A3 NZ UN FG K.
    assert (F : first_slot (names (w_st w) h l) p).
    { eapply holds_sole; try eassumption. eapply Forall_impl; [|exact UN]. intros e Q1 (Q2 & Q3 & _). auto. }
    pose proof (holds_head _ _ _ _ H) as [Hp _].
    assert (ON : forall j y, at_slot (w_st w) j y -> c_state y = Active -> c_locality y = l -> j = p /\ y = pc).
    { intros j y Y1 Y2 Y3. destruct (ho_all _ _ H j y Y1 ltac:(unfold live; congruence)) as [Q1|Q1]; [injection Q1 as <- <-; auto|]. rewrite Forall_forall in UN. destruct (UN _ Q1). auto. }
    destruct (rotate_live cf R pr chain issuer serial ski RF c MF h TargetIsDefault w l i Hr Ul Uh eq_refl) as (v & w' & E & Hr' & [(e & -> & S & X)|(nh & -> & L1 & B1 & D)]).
    - exfalso. destruct X as [(_ & X)|[(X & _)|[(_ & _ & t & j & y & T & Y1 & Y2 & Y3 & Y4)|(X & _)]]]; [contradiction|destruct (X p); apply F| |discriminate].
      pose proof (first_unique _ _ _ T F) as ->. destruct (ON j y Y1 Y2 Y3) as [-> ->]. destruct Y4; congruence.
    - apply (fine_call cf R pr chain issuer serial ski c _ _ _ _ _ _ E FG). right. destruct D as (p2 & pc2 & nh2 & _ & F2 & Hp2 & S & Eb & [(_ & -> & _)|(Q2 & _)]); [|discriminate].
      apply resp_inj in Eb. subst nh. pose proof (first_unique _ _ _ F2 F) as ->. assert (pc2 = pc) by (unfold at_slot in *; congruence). subst pc2.
      apply K; try assumption; [rewrite S; repeat split|]. rewrite S. eapply holds_put; [exact H|]. unfold live; cbn; congruence.
  Qed.

  (** DeriveContext with RECURSIVE. *)
  Lemma derive_again {A} h d f ty tl w l i p pc L (g : _ -> test device A) Q :
    reachable cf (w_st w) -> u32 l -> byte_string 16 h -> byte_string (label_size k) d -> u32 f -> u32 ty -> u32 tl ->
    N.testbit f 23 = false -> N.testbit f 24 = true -> N.testbit f 27 = false -> N.testbit f 29 = false -> N.testbit f 21 = false -> N.testbit f 25 = false ->
    holds (w_st w) ((p, pc) :: L) -> c_state pc = Active -> c_locality pc = l -> c_handle pc = h -> h <> repeat 0 16 -> Forall (unnamed h l) L ->
    ~ unsupported_option (w_st w) f -> c_recursive pc = true -> tci_type (c_tci pc) = ty ->
    (forall a, follows device send c (g a)) ->
    (forall w' ch ph tc, reachable cf (w_st w') -> same_globals (w_st w) (w_st w') -> byte_string 16 ch -> ch <> repeat 0 16 -> Forall (fun e => c_handle (snd e) <> ch) ((p, pc) :: L) ->
       holds (w_st w') ((p, set_handle ch (set_tci tc pc)) :: L) -> fine (g (GoOk (VDerived ch ph (repeat 0 32) 0 []))) (at_ w' l i) Q) ->
    fine (andthen device (call (GcDerive h d f ty tl)) g) (at_ w l i) Q.
  Proof.
    intros Hr Ul Uh Ud Uf Ut Utl B23 B24 B27 B29 B21 B25 H A1 A2 A3 NZ UN NU RC TY FG K.
    pose proof (holds_sole _ _ _ _ _ _ H A1 A2 A3 UN) as F. pose proof (holds_head _ _ _ _ H) as [Hp Lp].
    destruct (derive_live cf R pr chain issuer serial ski RF c MF h d f ty tl w l i Hr Ul Uh Ud Uf Ut Utl B23) as (v & w' & E & Hr' & [(e & -> & S & X)|(ch & ph & -> & Bc & Bp & M)]).
    - apply (fine_call cf R pr chain issuer serial ski c _ _ _ _ _ _ E FG). left. do 6 eexists. split; [reflexivity|]. split; [reflexivity|]. split; [exact E|]. left.
      destruct X as [(_ & X)|[(X & _)|[(_ & X)|(j & x & F2 & Hx & X)]]]; [contradiction|destruct (X p); apply F|exact X|]. exfalso.
      pose proof (first_unique _ _ _ F2 F) as ->. assert (x = pc) by (unfold at_slot in *; congruence). subst x.
      destruct X as [(_ & X)|[(_ & [(_ & X)|(_ & X)])|(X & _)]]; [|contradiction|apply X; unfold target_of; rewrite B27; reflexivity|congruence].
      destruct X as [(X & Y)|[(X & Y)|[(X & _)|(X & _)]]]; cbn [derive_req dc_flags dc_tci_type] in *; try congruence. destruct Y as [Y|[Y|[Y|Y]]]; congruence.
    - apply (fine_call cf R pr chain issuer serial ski c _ _ _ _ _ _ E FG). right. rewrite B24 in M. destruct M as (p2 & pc2 & tc & F2 & Hp2 & S & _ & _ & _ & [(Q1 & _)|(_ & G)]); [contradiction|].
      pose proof (first_unique _ _ _ F2 F) as ->. assert (pc2 = pc) by (unfold at_slot in *; congruence). subst pc2.
      destruct (gen_free _ _ _ H G) as [G1 G2]. eapply (K w' ch ph tc); try assumption; [rewrite S; repeat split|]. rewrite S. eapply holds_put; [exact H|]. unfold live; cbn; congruence.
  Qed.

  (** A certificate that may not be issued. *)
  Lemma certify_stops h d w l i p pc L l1 l2 (Q : unit -> bench device -> Prop) :
    reachable cf (w_st w) -> u32 l -> byte_string 16 h -> byte_string (label_size k) d -> supports (w_st w) X509 ->
    holds (w_st w) ((p, pc) :: L) -> c_state pc = Active -> c_locality pc = l -> c_handle pc = h -> Forall (unnamed h l) L -> c_x509 pc = false ->
    Q tt (at_ w l i) -> fine (must_fail device send c (GcCertify h d 0 0) [StatusInvalidArgument] l1 l2) (at_ w l i) Q.
  Proof.
    intros Hr Ul Uh Ud Sp H A1 A2 A3 UN X0 K. pose proof (holds_sole _ _ _ _ _ _ H A1 A2 A3 UN) as F. pose proof (holds_head _ _ _ _ H) as [Hp _].
    destruct (call_live cf R pr chain issuer serial ski RF c MF (GcCertify h d 0 0) w l i Hr Ul) as (r & out & w' & v & Hrun & D & E & _).
    { cbn [usable]. repeat split; try assumption; try apply Uh; try apply Ud. }
    destruct Hrun as (w1 & X & -> & ->). unfold sim_exec in X.
    assert (EX : r = Err InvalidArgument /\ w1 = mkWorld (w_st w) (w_c w) (w_p w) (repeat 0 (N.to_nat (wire_size cf (meant k (GcCertify h d 0 0)))))).
    { assert (EC : exists cc, meant k (GcCertify h d 0 0) = CmdCertifyKey cc /\ ck_handle (certify_inner cc) = h /\ ck_format (certify_inner cc) = 0).
      { clear. generalize k. intros []; cbn [meant]; eexists; (split; [reflexivity|split; reflexivity]). }
      destruct EC as (cc & EC & E1 & E2). revert X. generalize (repeat 0 (N.to_nat (wire_size cf (meant k (GcCertify h d 0 0))))). intros buf X.
      rewrite EC in X. cbn [exec_command] in X. unfold exec_certify in X. rewrite E1, E2 in X.
      unfold bind, get_st, lift, st_get in X. cbn [w_st] in X. rewrite (proj2 (lookup_ok _ _ _ _) F) in X. cbn [bind get_st lift w_st] in X.
      unfold bind, get_st, lift in X. cbn [w_st] in X. unfold get_ctx, at_slot in *. rewrite Hp in X. cbn [ok_or] in X. unfold sup_x509 in X.
      rewrite X0 in X. change (0 =? 0) with true in X. cbn [andb negb] in X.
      assert (S1 : contains (st_support (w_st w)) (bit 26) = true) by (rewrite contains_bit; exact Sp).
      rewrite S1 in X. cbn [negb] in X. unfold fail in X. injection X as <- <-. auto. }
    destruct EX as [-> ->]. cbn [understood] in D. subst v. cbn [w_st w_c w_p] in E. rewrite (eta R) in E.
    unfold must_fail. apply (fine_call cf R pr chain issuer serial ski c _ _ _ _ _ _ E); [intros; follow|]. right. eapply fine_is; [reflexivity|exact K].
  Qed.

  (** A signature in a simulation context. *)
  Lemma sign_refused h w l i p pc : reachable cf (w_st w) -> u32 l -> byte_string 16 h ->
    first_slot (names (w_st w) h l) p -> at_slot (w_st w) p pc -> c_type pc = Simulation ->
    call (GcSign h (SuiteDerive.zeros (own_profile cf)) 0 (repeat 0 (profile_sign_data_size (own_profile cf)))) (at_ w l i) =
    (Some (GoErr (GoStatus (get_error_code InvalidArgument))), [], at_ w l i).
  Proof.
    intros Hr Ul Uh F Hp Sm. set (q := GcSign h _ 0 _).
    destruct (call_live cf R pr chain issuer serial ski RF c MF q w l i Hr Ul) as (r & out & w' & v & Hrun & D & E & _).
    { unfold q, SuiteDerive.zeros. apply (sign_usable cf c MF). exact Uh. }
    destruct Hrun as (w1 & X & -> & ->). unfold sim_exec in X.
    assert (EX : r = Err InvalidArgument /\ w1 = mkWorld (w_st w) (w_c w) (w_p w) (repeat 0 (N.to_nat (wire_size cf (meant k q))))).
    { assert (EC : exists cc lb dt, meant k q = CmdSign cc /\ sign_inputs cc = Ok (h, lb, dt)).
      { unfold q. clear. generalize k. intros []; cbn [meant]; do 3 eexists; (split; [reflexivity|]); reflexivity. }
      destruct EC as (cc & lb & dt & EC & E1). revert X. generalize (repeat 0 (N.to_nat (wire_size cf (meant k q)))). intros buf X.
      rewrite EC in X. cbn [exec_command] in X. unfold exec_sign in X. rewrite E1 in X.
      unfold bind, get_st, lift, st_get in X. cbn [w_st] in X. rewrite (proj2 (lookup_ok _ _ _ _) F) in X. cbn [bind get_st lift w_st] in X.
      unfold bind, get_st, lift in X. cbn [w_st] in X. unfold get_ctx, at_slot in *. rewrite Hp in X. cbn [ok_or] in X. 
      rewrite Sm in X. cbn in X. injection X as <- <-. auto. }
    destruct EX as [-> ->]. cbn [understood] in D. subst v. cbn [w_st w_c w_p] in E. rewrite (eta R) in E. exact E.
  Qed.

  (** TestInternalInputFlags. *)
  Lemma internal_flags_fine w l i p x : reachable cf (w_st w) -> u32 l -> lone (w_st w) l p x -> (3 <= max_handles cf)%nat ->
    gs_internal_dice sup = true -> gs_internal_info sup = true -> supports (w_st w) INTERNAL_DICE -> supports (w_st w) INTERNAL_INFO ->
    fine (test_internal_flags device send sup c) (at_ w l i) (fun _ b => exists w', b = at_ w' l i /\ reachable cf (w_st w') /\ same_globals (w_st w) (w_st w') /\ holds (w_st w') []).
  Proof.
    intros Hr Ul Lo M3 GD GI SD SI. pose proof (lone_slot _ _ _ _ _ _ _ RF _ _ _ _ Hr Lo) as P64. destruct Lo as (H & A1 & A2 & A3 & A4).
    assert (RP : ROOT <> p) by (unfold ROOT; lia).
    unfold test_internal_flags. apply fine_then; [unfold initial_handle; follow|intros; follow|]. eapply fine_is; [reflexivity|].
    apply fine_local. apply vfine_finally; [follow|intros; follow|].
    vstep. apply (profile_fine cf R pr chain issuer serial ski RF c); [exact Hr|exact Ul|]. rewrite GD, GI.
    vstep. vstep. apply vfine_lift. unfold should_derive.
    eapply derive_goes; sides.
    { split; [constructor|]. discriminate. }
    intros w1 ch1 ph1 (q1 & dg1 & Hr1 & Bc1 & Bp1 & G1 & Q64 & J1 & (C0 & C1) & Ph & _). vm_compute in Ph. eapply fine_is; [reflexivity|]. cbn [fst snd].
    assert (RQ : ROOT <> q1) by (unfold ROOT; lia). nodup J1.
    vstep. apply vfine_set. apply vfine_lift. eapply fine_is; [reflexivity|].
    vstep. apply vfine_lift. unfold should_derive. apply holds_swap in J1.
    assert (SI1 : supports (w_st w1) INTERNAL_INFO) by (unfold supports in *; destruct G1 as (_ & _ & -> & _); exact SI).
    eapply derive_goes; sides.
    { split; [entries|discriminate]. }
    intros w2 ch2 ph2 (q2 & dg2 & Hr2 & Bc2 & Bp2 & G2 & Q64' & J2 & (D0 & D1) & _). eapply fine_is; [reflexivity|]. cbn [fst snd].
    apply vfine_set.
    unfold ignore. apply holds_swap in J2. nodup J2.
    eapply destroy_goes; sides.
    intros w3 Hr3 G3 D3. eapply fine_is; [reflexivity|]. exists w3. split; [reflexivity|]. split; [exact Hr3|]. split; [eapply globals_trans; [exact G1|eapply globals_trans; eassumption]|].
    eapply (destroy_everything cf); [apply wfr; exact Hr2|exact J2| |exact D3].
    assert (Dq : doomed (w_st w2) q2 q1).
    { eapply retired_doomed; [exact J2|right; left; reflexivity|reflexivity|eapply child_in; [exact J2|left; reflexivity|reflexivity]|constructor|]. entries. }
    intros a y [E|[E|[E|[]]]]; injection E as <- <-; [constructor|exact Dq|].
    eapply retired_doomed; [exact J2|right; right; left; reflexivity|reflexivity|eapply child_in; [exact J2|right; left; reflexivity|reflexivity]|exact Dq|]. entries.
  Qed.

  (** What is left when a test lost the handle of a context: the default context is retired. *)
  Definition lost (s s' : state) (p : nat) (l : N) : Prop :=
    same_globals s s' /\ (exists x', at_slot s' p x' /\ c_state x' = Retired /\ c_parent x' = ROOT) /\
    (exists q y, at_slot s' q y /\ c_state y = Active /\ c_locality y = l /\ c_handle y <> repeat 0 16) /\
    forall l' j, ~ names s' (repeat 0 16) l' j.
  Lemma lost_holds s s' p l x' q y L : same_globals s s' -> holds s' ((p, x') :: (q, y) :: L) -> c_state x' = Retired -> c_parent x' = ROOT ->
    c_state y = Active -> c_locality y = l -> c_handle y <> repeat 0 16 -> Forall (fun e => c_state (snd e) <> Active) L -> lost s s' p l.
  Proof.
    intros G H A1 A2 B1 B2 B3 U. split; [exact G|]. split; [exists x'; split; [apply (holds_head _ _ _ _ H)|auto]|]. split.
    - exists q, y. split; [apply (ho_in _ _ H); right; left; reflexivity|auto].
    - intros l'. eapply holds_unnamed; [exact H|]. apply Forall_cons; [unfold unnamed; cbn [snd]; intuition congruence|]. apply Forall_cons; [unfold unnamed; cbn [snd]; intuition congruence|].
      eapply Forall_impl; [|exact U]. unfold unnamed. intuition congruence.
  Qed.

  (** TestPrivilegesEscalation. *)
  Lemma privileges_fine w l i p x : reachable cf (w_st w) -> u32 l -> lone (w_st w) l p x -> (3 <= max_handles cf)%nat -> supports (w_st w) X509 ->
    fine (test_privileges device send sup c) (at_ w l i) (fun _ b => exists w', b = at_ w' l i /\ reachable cf (w_st w') /\ lost (w_st w) (w_st w') p l).
  Proof.
    intros Hr Ul Lo M3 SX. pose proof (lone_slot _ _ _ _ _ _ _ RF _ _ _ _ Hr Lo) as P64. destruct Lo as (H & A1 & A2 & A3 & A4).
    assert (RP : ROOT <> p) by (unfold ROOT; lia).
    unfold test_privileges. apply fine_then; [unfold initial_handle; follow|intros; follow|]. eapply fine_is; [reflexivity|].
    apply fine_then; [follow|intros; follow|]. eapply fine_is; [exact (transport_call cf R pr chain issuer serial ski RF c 303 w l i Hr Ul)|].
    apply fine_then; [follow|intros; follow|]. unfold must_derive.
    eapply derive_goes; sides.
    { split; [constructor|]. discriminate. }
    intros w1 ch1 ph1 (q1 & dg1 & Hr1 & Bc1 & Bp1 & G1 & Q64 & J1 & (C0 & C1) & Ph & _). vm_compute in Ph. eapply fine_is; [reflexivity|]. cbn [fst snd].
    assert (RQ : ROOT <> q1) by (unfold ROOT; lia). nodup J1. apply holds_swap in J1.
    assert (SX1 : supports (w_st w1) X509) by (unfold supports in *; destruct G1 as (_ & _ & -> & _); exact SX).
    apply fine_then; [follow|intros; follow|].
    eapply derive_stops; sides.
    { left. left. split; reflexivity. }
    intros w2 Hr2 S2.
    eapply certify_stops; try (rewrite S2; exact J1); sides.
    { rewrite S2. exact SX1. }
    exists w2. split; [reflexivity|]. split; [exact Hr2|]. rewrite S2. apply holds_swap in J1. eapply lost_holds; [exact G1|exact J1|reflexivity|exact A4|reflexivity|reflexivity|exact C0|constructor].
  Qed.

  (** TestDeriveContext. *)
  Lemma derive_fine w l i p x : reachable cf (w_st w) -> u32 l -> lone (w_st w) l p x -> (4 <= max_handles cf)%nat -> supports (w_st w) RETAIN_PARENT_CONTEXT ->
    fine (test_derive device send sup c) (at_ w l i) (fun _ b => exists w', b = at_ w' l i /\ reachable cf (w_st w') /\ lost (w_st w) (w_st w') p l).
  Proof.
    intros Hr Ul Lo M4 SR. pose proof (lone_slot _ _ _ _ _ _ _ RF _ _ _ _ Hr Lo) as P64. destruct Lo as (H & A1 & A2 & A3 & A4).
    assert (RP : ROOT <> p) by (unfold ROOT; lia).
    unfold test_derive. apply fine_then; [unfold initial_handle; follow|intros; follow|]. eapply fine_is; [reflexivity|].
    apply fine_local. apply vfine_finally; [follow|intros; follow|].
    vstep. apply (profile_fine cf R pr chain issuer serial ski RF c); [exact Hr|exact Ul|]. cbv zeta.
    vstep. apply vfine_lift. unfold should_derive.
    eapply derive_goes; sides.
    { split; [constructor|]. auto. }
    intros w1 ch1 ph1 (q1 & dg1 & Hr1 & Bc1 & Bp1 & G1 & Q64 & J1 & C0 & Ph & _). vm_compute in Ph. change (ch1 = repeat 0 16) in C0. subst ch1. eapply fine_is; [reflexivity|]. cbn [fst snd].
    assert (RQ : ROOT <> q1) by (unfold ROOT; lia). nodup J1. apply holds_swap in J1.
    vstep. apply vfine_set. vstep. apply vfine_lift. eapply fine_is; [reflexivity|].
    assert (SR1 : supports (w_st w1) RETAIN_PARENT_CONTEXT) by (unfold supports in *; destruct G1 as (_ & _ & -> & _); exact SR).
    assert (At1 : at_slot (w_st w1) q1 _) by (apply (holds_head _ _ _ _ J1)).
    vstep. apply vfine_lift. eapply derive_stops; sides.
    { right. split; [reflexivity|]. exists q1. eexists. split; [exact At1|]. split; [reflexivity|]. split; [reflexivity|]. right; right. reflexivity. }
    intros w2 Hr2 S2.
    vstep. apply vfine_lift. eapply derive_stops; try (rewrite S2; exact J1); try rewrite S2; sides.
    { right. split; [reflexivity|]. exists q1. split; [|right; reflexivity]. eapply holds_sole; [exact J1|reflexivity|reflexivity|reflexivity|]. entries. }
    intros w3 Hr3 S3. rewrite <- S3 in J1, SR1, G1.
    vstep. apply vfine_lift. unfold should_derive.
    eapply derive_goes; sides.
    { split; [entries|discriminate]. }
    intros w4 ch2 ph2 (q2 & dg2 & Hr4 & Bc2 & Bp2 & G2 & Q64' & J2 & (D0 & D1) & _). eapply fine_is; [reflexivity|]. cbn [fst snd].
    nodup J2. apply holds_swap in J2. assert (RQ2 : ROOT <> q2) by (unfold ROOT; lia).
    vstep. apply vfine_set. vstep. apply vfine_lift. rewrite (proj2 (same_handle_neq ch2 DefaultContextHandle) D0). eapply fine_is; [reflexivity|].
    assert (SR2 : supports (w_st w4) RETAIN_PARENT_CONTEXT) by (unfold supports in *; destruct G2 as (_ & _ & -> & _); exact SR1).
    vstep. apply vfine_lift. unfold should_derive.
    eapply derive_goes; sides.
    { split; [entries|intros _ Q; contradiction]. }
    intros w5 ch3 ph3 (q3 & dg3 & Hr5 & Bc3 & Bp3 & G3 & Q64'' & J3 & (E0 & E1) & Ph3 & NR). eapply fine_is; [reflexivity|]. cbn [fst snd]. nodup J3. assert (RQ3 : ROOT <> q3) by (unfold ROOT; lia).
    change ((ch2 = repeat 0 16 /\ ph3 = repeat 0 16) \/ (ch2 <> repeat 0 16 /\ ph3 <> repeat 0 16 /\ Forall (fun e => c_handle (snd e) <> ph3) [(q2, born (born x p MakeDefault 0 l 0 (SuiteDerive.zeros (own_profile cf)) dg1 (repeat 0 16)) q1 0 0 l 0 (SuiteDerive.zeros (own_profile cf)) dg2 ch2); (q1, parent_after (born x p MakeDefault 0 l 0 (SuiteDerive.zeros (own_profile cf)) dg1 (repeat 0 16)) q2 0 ph2); (p, parent_after x q1 MakeDefault ph1)])) in Ph3.
    destruct Ph3 as [(Q & _)|(_ & F0 & F1)]; [contradiction|].
    apply vfine_set. unfold ignore.
    pose proof (NR eq_refl E0) as Nh.
    apply holds_swap in J3.
    eapply destroy_goes; sides.
    intros w6 Hr6 G6 D6. eapply fine_is; [reflexivity|]. exists w6. split; [reflexivity|]. split; [exact Hr6|].
    eapply (destroy_leaf cf) in D6; [|apply wfr; exact Hr5|exact J3|reflexivity|reflexivity|entries].
    apply holds_last in D6. eapply lost_holds; [|exact D6|reflexivity|exact A4|reflexivity|reflexivity|exact F0|entries].
    eapply globals_trans; [exact G1|eapply globals_trans; [exact G2|eapply globals_trans; eassumption]].
  Qed.

  Lemma fine_bare q b Q : fine (andthen device (call q) (fun v => done device v)) b Q -> fine (call q) b Q.
  Proof. unfold SuiteFollow.fine, andthen. destruct (call q b) as [[[a|] cs] b1]; cbn [done]; [rewrite app_nil_r|]; auto. Qed.

  (** TestDeriveContextInputTypeUniqueness. *)
  Lemma children_gone (a b : nat) : a <> b -> N.clearbit (N.clearbit (N.lor (N.lor 0 (N.shiftl 1 (N.of_nat a))) (N.shiftl 1 (N.of_nat b))) (N.of_nat b)) (N.of_nat a) = 0.
  Proof.
    intros Nab. apply N.bits_inj. intros i. rewrite !N.clearbit_eqb, !N.lor_spec, !N.shiftl_1_l, !N.pow2_bits_eqb, N.bits_0. cbn [orb].
    destruct (N.eqb (N.of_nat a) i), (N.eqb (N.of_nat b) i); reflexivity.
  Qed.
  Lemma type_uniqueness_fine w l i p x : reachable cf (w_st w) -> u32 l -> lone (w_st w) l p x -> (4 <= max_handles cf)%nat ->
    supports (w_st w) RETAIN_PARENT_CONTEXT -> supports (w_st w) ROTATE_CONTEXT ->
    fine (test_type_uniqueness device send sup c) (at_ w l i) (fun _ b => exists w', b = at_ w' l i /\ reachable cf (w_st w') /\ undisturbed (w_st w) (w_st w')).
  Proof.
    intros Hr Ul Lo M4 SR SO. pose proof (lone_slot _ _ _ _ _ _ _ RF _ _ _ _ Hr Lo) as P64. pose proof (lone_children _ _ _ _ Hr Lo) as C00. destruct Lo as (H & A1 & A2 & A3 & A4).
    assert (RP : ROOT <> p) by (unfold ROOT; lia).
    unfold test_type_uniqueness. apply fine_then; [unfold initial_handle; follow|intros; follow|]. eapply fine_is; [reflexivity|].
    apply fine_then; [follow|intros; follow|]. eapply fine_is; [exact (transport_call cf R pr chain issuer serial ski RF c 661 w l i Hr Ul)|]. cbv zeta.
    apply fine_then; [follow|intros; follow|]. unfold must_handle.
    eapply rotate_goes; sides.
    intros w0 h Hr0 G0 Bh Nh Fh J0. eapply fine_is; [reflexivity|].
    assert (SR0 : supports (w_st w0) RETAIN_PARENT_CONTEXT) by (unfold supports in *; destruct G0 as (_ & _ & -> & _); exact SR).
    apply fine_local. apply vfine_finally; [follow|intros; follow|].
    vstep. apply vfine_lift. unfold must_derive.
    eapply derive_goes; sides.
    { split; [constructor|intros _ Q; contradiction]. }
    intros w1 ch1 ph1 (q1 & dg1 & Hr1 & Bc1 & Bp1 & G1 & Q64 & J1 & (C0 & C1) & [(Q & _)|(_ & P1 & P2)] & NR); [contradiction|]. specialize (NR eq_refl C0). eapply fine_is; [reflexivity|]. cbn [fst snd].
    assert (RQ : ROOT <> q1) by (unfold ROOT; lia). nodup J1.
    assert (SR1 : supports (w_st w1) RETAIN_PARENT_CONTEXT) by (unfold supports in *; destruct G1 as (_ & _ & -> & _); exact SR0).
    vstep. apply vfine_set. apply vfine_finally; [follow|intros; follow|].
    vstep. apply vfine_lift.
    eapply derive_stops; sides.
    { left. right. right. right. split; [reflexivity|]. assert (X : In (q1, born (set_handle h x) p RetainParent 0xABCD1234 l 0 (SuiteDerive.zeros (own_profile cf)) dg1 ch1) [(p, parent_after (set_handle h x) q1 RetainParent ph1); (q1, born (set_handle h x) p RetainParent 0xABCD1234 l 0 (SuiteDerive.zeros (own_profile cf)) dg1 ch1)]) by (right; left; reflexivity).
      eexists q1, _. split; [exact (proj1 (ho_in _ _ J1 _ _ X))|]. split; [eapply child_in; [exact J1|exact X|reflexivity]|reflexivity]. }
    intros w2 Hr2 S2. rewrite <- S2 in J1, SR1, G1.
    vstep. apply vfine_lift.
    apply fine_bare. eapply derive_goes; sides.
    { split; [entries|intros _ Q; contradiction]. }
    intros w3 ch2 ph2 (q2 & dg2 & Hr3 & Bc2 & Bp2 & G2 & Q64' & J2 & (D0 & D1) & [(Q & _)|(_ & P3 & P4)] & NR2); [contradiction|]. specialize (NR2 eq_refl D0). eapply fine_is; [reflexivity|].
    assert (RQ2 : ROOT <> q2) by (unfold ROOT; lia). nodup J2. apply holds_swap in J2.
    repeat rewrite Forall_cons_iff in D1, P4. cbn [snd parent_after born c_handle set_handle] in D1, P4. decompose [and] D1. decompose [and] P4. clear D1 P4.
    vstep. apply vfine_set. apply vfine_lift. unfold ignore.
    eapply destroy_goes; sides.
    intros w4 Hr4 G4 D4. eapply fine_is; [reflexivity|].
    eapply (destroy_leaf cf) in D4; [|apply wfr; exact Hr3|exact J2|reflexivity|reflexivity|entries]. apply holds_swap in D4.
    eapply destroy_goes; sides.
    intros w5 Hr5 G5 D5. eapply fine_is; [reflexivity|].
    eapply (destroy_leaf cf) in D5; [|apply wfr; exact Hr4|exact D4|reflexivity|reflexivity|entries].
    assert (SO5 : supports (w_st w5) ROTATE_CONTEXT).
    { clear - SO G0 G1 G2 G4 G5. unfold supports, same_globals in *. intuition congruence. }
    unfold should.
    eapply rotate_back; sides.
    intros w6 Hr6 G6 J6. eapply fine_is; [reflexivity|]. exists w6. split; [reflexivity|]. split; [exact Hr6|].
    eapply (holds_undisturbed cf); [apply wfr; exact Hr|apply wfr; exact Hr6| |exact H|].
    { clear - G0 G1 G2 G4 G5 G6. unfold same_globals in *. intuition congruence. }
    match type of J6 with holds _ [(_, ?y)] => assert (EY : y = x) end.
    { unfold parent_after, set_handle, set_children. cbn [c_handle c_tci c_children c_locality c_parent c_type c_state c_info c_dice c_x509 c_export c_recursive].
      rewrite C00. rewrite children_gone by first [tauto|intros E; symmetry in E; tauto]. destruct x; cbn in *; subst; reflexivity. }
    rewrite EY in J6. exact J6.
  Qed.

  (** TestDeriveContextAllowRecursive. *)
  Lemma allow_recursive_fine w l i p x : reachable cf (w_st w) -> u32 l -> lone (w_st w) l p x -> (4 <= max_handles cf)%nat -> c_recursive x = true ->
    supports (w_st w) RETAIN_PARENT_CONTEXT -> supports (w_st w) ROTATE_CONTEXT -> supports (w_st w) RECURSIVE ->
    fine (test_allow_recursive device send sup c) (at_ w l i) (fun _ b => exists w', b = at_ w' l i /\ reachable cf (w_st w') /\ undisturbed (w_st w) (w_st w')).
  Proof.
    intros Hr Ul Lo M4 RX SR SO SC. pose proof (lone_slot _ _ _ _ _ _ _ RF _ _ _ _ Hr Lo) as P64. pose proof (lone_children _ _ _ _ Hr Lo) as C00. destruct Lo as (H & A1 & A2 & A3 & A4).
    assert (RP : ROOT <> p) by (unfold ROOT; lia).
    unfold test_allow_recursive. apply fine_then; [unfold initial_handle; follow|intros; follow|]. eapply fine_is; [reflexivity|].
    apply fine_then; [follow|intros; follow|]. eapply fine_is; [exact (transport_call cf R pr chain issuer serial ski RF c 719 w l i Hr Ul)|]. cbv zeta.
    apply fine_then; [follow|intros; follow|]. unfold must_handle.
    eapply rotate_goes; sides.
    intros w0 h Hr0 G0 Bh Nh Fh J0. eapply fine_is; [reflexivity|].
    assert (SR0 : supports (w_st w0) RETAIN_PARENT_CONTEXT) by (unfold supports in *; destruct G0 as (_ & _ & -> & _); exact SR).
    assert (SC0 : supports (w_st w0) RECURSIVE) by (unfold supports in *; destruct G0 as (_ & _ & -> & _); exact SC).
    apply fine_local. apply vfine_finally; [follow|intros; follow|].
    vstep. apply vfine_lift. unfold must_derive.
    eapply derive_goes; sides.
    { split; [constructor|intros _ Q; contradiction]. }
    intros w1 ch1 ph1 (q1 & dg1 & Hr1 & Bc1 & Bp1 & G1 & Q64 & J1 & (C0 & C1) & [(Q & _)|(_ & P1 & P2)] & NR); [contradiction|]. specialize (NR eq_refl C0). eapply fine_is; [reflexivity|]. cbn [fst snd].
    assert (RQ : ROOT <> q1) by (unfold ROOT; lia). nodup J1.
    assert (SR1 : supports (w_st w1) RETAIN_PARENT_CONTEXT) by (unfold supports in *; destruct G1 as (_ & _ & -> & _); exact SR0).
    assert (SC1 : supports (w_st w1) RECURSIVE) by (unfold supports in *; destruct G1 as (_ & _ & -> & _); exact SC0).
    vstep. apply vfine_set. apply vfine_finally; [follow|intros; follow|].
    vstep. apply vfine_lift. apply holds_swap in J1.
    eapply derive_stops; sides.
    { left. right. left. split; [reflexivity|left; reflexivity]. }
    intros w2 Hr2 S2. rewrite <- S2 in J1, SR1, SC1, G1. apply holds_swap in J1.
    vstep. apply vfine_lift. unfold must_derive.
    eapply derive_goes; sides.
    { split; [entries|intros _ Q; contradiction]. }
    intros w3 ch2 ph2 (q2 & dg2 & Hr3 & Bc2 & Bp2 & G2 & Q64' & J2 & (D0 & D1) & [(Q & _)|(_ & P3 & P4)] & NR2); [contradiction|]. specialize (NR2 eq_refl D0). eapply fine_is; [reflexivity|]. cbn [fst snd].
    assert (RQ2 : ROOT <> q2) by (unfold ROOT; lia). nodup J2. apply holds_swap in J2.
    repeat rewrite Forall_cons_iff in D1, P4. cbn [snd parent_after born c_handle set_handle] in D1, P4. decompose [and] D1. decompose [and] P4. clear D1 P4.
    assert (SC2 : supports (w_st w3) RECURSIVE) by (unfold supports in *; destruct G2 as (_ & _ & -> & _); exact SC1).
    vstep. apply vfine_set. apply vfine_finally; [follow|intros; follow|].
    vstep. apply vfine_lift. apply fine_bare.
    eapply derive_again; sides.
    intros w4 ch3 ph3 tc Hr4 G4 Bc3 N3 F3 J4. eapply fine_is; [reflexivity|].
    repeat rewrite Forall_cons_iff in F3. cbn [snd parent_after born c_handle set_handle] in F3. decompose [and] F3. clear F3.
    assert (SC4 : supports (w_st w4) RECURSIVE) by (unfold supports in *; destruct G4 as (_ & _ & -> & _); exact SC2).
    vstep. vstep. apply vfine_set. apply vfine_lift. eapply fine_is; [reflexivity|].
    apply vfine_lift.
    eapply derive_stops; sides.
    { left. right. left. split; [reflexivity|]. right; right; left; reflexivity. }
    intros w5 Hr5 S5. rewrite <- S5 in J4, G4. cbn [fst snd].
    unfold ignore. eapply destroy_goes; sides.
    intros w6 Hr6 G6 D6. eapply fine_is; [reflexivity|].
    eapply (destroy_leaf cf) in D6; [|apply wfr; exact Hr5|exact J4|reflexivity|reflexivity|entries]. apply holds_swap in D6.
    eapply destroy_goes; sides.
    intros w7 Hr7 G7 D7. eapply fine_is; [reflexivity|].
    eapply (destroy_leaf cf) in D7; [|apply wfr; exact Hr6|exact D6|reflexivity|reflexivity|entries].
    assert (SO7 : supports (w_st w7) ROTATE_CONTEXT).
    { clear - SO G0 G1 G2 G4 G6 G7. unfold supports, same_globals in *. intuition congruence. }
    unfold should.
    eapply rotate_back; sides.
    intros w8 Hr8 G8 J8. eapply fine_is; [reflexivity|]. exists w8. split; [reflexivity|]. split; [exact Hr8|].
    eapply (holds_undisturbed cf); [apply wfr; exact Hr|apply wfr; exact Hr8| |exact H|].
    { clear - G0 G1 G2 G4 G6 G7 G8. unfold same_globals in *. intuition congruence. }
    match type of J8 with holds _ [(_, ?y)] => assert (EY : y = x) end.
    { unfold parent_after, set_handle, set_children. cbn [c_handle c_tci c_children c_locality c_parent c_type c_state c_info c_dice c_x509 c_export c_recursive].
      rewrite C00. rewrite children_gone by first [tauto|intros E; symmetry in E; tauto]. destruct x; cbn in *; subst; reflexivity. }
    rewrite EY in J8. exact J8.
  Qed.

  (** An export that is not allowed. *)
  Lemma export_refused h d f w l i p pc L : reachable cf (w_st w) -> u32 l -> byte_string 16 h -> byte_string (label_size k) d -> u32 f ->
    N.testbit f 23 = true -> holds (w_st w) ((p, pc) :: L) -> c_state pc = Active -> c_locality pc = l -> c_handle pc = h -> Forall (unnamed h l) L -> c_export pc = false ->
    exists e w', call (GcDerive h d f 0 0) (at_ w l i) = (Some (GoErr (GoStatus (get_error_code e))), [], at_ w' l i) /\ reachable cf (w_st w') /\ w_st w' = w_st w.
  Proof.
    intros Hr Ul Uh Ud Uf B23 H A1 A2 A3 UN NX. pose proof (holds_sole _ _ _ _ _ _ H A1 A2 A3 UN) as F. pose proof (holds_head _ _ _ _ H) as [Hp _].
    destruct (call_live cf R pr chain issuer serial ski RF c MF (GcDerive h d f 0 0) w l i Hr Ul) as (r & out & w' & v & Hrun & D & E & Hr' & _).
    { cbn [usable]. repeat split; try assumption; try apply Uh; try apply Ud. }
    cbn [meant] in *. fold (derive_req h d f 0 0) in *. set (dq := derive_req h d f 0 0) in *.
    destruct Hrun as (w1 & X & -> & ->). unfold sim_exec in X. cbn [exec_command] in X. apply exec_derive_inv in X.
    assert (NO : forall a b, derive_ok dq l (w_st w) a b -> False).
    { intros a b (_ & F2 & Hb & B). pose proof (first_unique _ _ _ F2 F) as ->. assert (b = pc) by (unfold at_slot in *; congruence). subst b.
      destruct (args_fine pc f B) as (_ & _ & B3). apply (B3 B23). auto. }
    cbn [w_st] in X. destruct X as [(S & N & _)|[(s' & bs & HD & _)|[(s' & bs & HD & _)|(s' & w2 & cr & ph & HD & _)]]].
    - destruct r as [n|e|kk]; [destruct (N n eq_refl)| |destruct D]. cbn [understood] in D. subst v. do 2 eexists. split; [exact E|]. split; [exact Hr'|exact S].
    - destruct HD as (a & b & b' & dd & HD & _). destruct (NO _ _ HD).
    - destruct HD as (a & b & b' & q & ch & dd & HD & _). destruct (NO _ _ HD).
    - destruct HD as (a & b & b' & u & ue & z & HD & _). destruct (NO _ _ HD).
  Qed.

  (** TestDeriveContextDisallowedChildCdiExport. *)
  Lemma disallowed_fine w l i p x : reachable cf (w_st w) -> u32 l -> lone (w_st w) l p x -> (2 <= max_handles cf)%nat ->
    fine (test_disallowed_export device send sup c) (at_ w l i) (fun _ b => exists w', b = at_ w' l i /\ reachable cf (w_st w') /\ lost (w_st w) (w_st w') p l).
  Proof.
    intros Hr Ul Lo M2. pose proof (lone_slot _ _ _ _ _ _ _ RF _ _ _ _ Hr Lo) as P64. destruct Lo as (H & A1 & A2 & A3 & A4).
    assert (RP : ROOT <> p) by (unfold ROOT; lia).
    unfold test_disallowed_export. apply fine_then; [unfold initial_handle; follow|intros; follow|]. eapply fine_is; [reflexivity|].
    apply fine_finally; [follow|follow|].
    apply fine_then; [follow|intros; follow|]. eapply fine_is; [exact (transport_call cf R pr chain issuer serial ski RF c 139 w l i Hr Ul)|].
    apply fine_then; [follow|intros; follow|]. unfold must_derive.
    eapply derive_goes; sides.
    { split; [constructor|]. discriminate. }
    intros w1 ch1 ph1 (q1 & dg1 & Hr1 & Bc1 & Bp1 & G1 & Q64 & J1 & (C0 & C1) & Ph & _). vm_compute in Ph. eapply fine_is; [reflexivity|]. cbn [fst snd].
    assert (RQ : ROOT <> q1) by (unfold ROOT; lia). nodup J1. apply holds_swap in J1.
    destruct (export_refused ch1 (SuiteDerive.zeros (own_profile cf)) (N.lor CdiExport CreateCertificate) w1 l i q1 _ _ Hr1 Ul Bc1 Uz eq_refl eq_refl J1 eq_refl eq_refl eq_refl) as (e & w2 & E2 & Hr2 & S2); [entries|reflexivity|].
    apply fine_then; [follow|intros; follow|]. eapply fine_is; [exact E2|]. eapply fine_is; [reflexivity|].
    unfold ignore. rewrite <- S2 in J1, G1. eapply destroy_stops; sides.
    intros e2. eapply fine_is; [reflexivity|]. exists w2. split; [reflexivity|]. split; [exact Hr2|].
    apply holds_swap in J1. eapply lost_holds; [exact G1|exact J1|reflexivity|exact A4|reflexivity|reflexivity|exact C0|constructor].
  Qed.

  (** TestSignSimulation, from any state. *)
  Lemma sign_simulation_says w l i : reachable cf (w_st w) -> u32 l -> gs_simulation sup = true ->
    exists r cs w', test_sign_simulation device send sup c (at_ w l i) = (r, cs, at_ w' l i) /\ reachable cf (w_st w') /\
      ((cs = [Stopped 86] /\ w_st w' = w_st w /\ (~ supports (w_st w) SIMULATION \/ Reasons.full (w_st w) \/ eight_draws cf pr dig w w')) \/
       (cs = [] /\ supports (w_st w) SIMULATION /\ undisturbed (w_st w) (w_st w'))).
  Proof.
    intros Hr Ul Gs. unfold test_sign_simulation.
    destruct (initial_sim cf R pr chain issuer serial ski RF sup c MF w l i Hr Ul Gs) as (v & w1 & E & Hr1 & [(e & -> & S1 & Ei & X)|(h & idx & old & -> & Uh & G & Sp & O1 & O2 & S1 & Ei)]).
    { exists None, [Stopped 86], w1. split; [apply then_none; exact Ei|]. split; [exact Hr1|]. left. split; [reflexivity|]. split; [exact S1|]. intuition. }
    rewrite (then_step _ _ _ _ _ Ei).
    assert (Li : (idx < length (st_contexts (w_st w)))%nat) by (eapply at_lt; eassumption).
    assert (F1 : first_slot (names (w_st w1) h l) idx) by (rewrite S1; eapply names_fresh; try eassumption; try reflexivity; try exact Li; apply G).
    assert (At : at_slot (w_st w1) idx (sim_context cf l h)) by (rewrite S1; eapply at_put_same; exact O1).
    pose proof (sign_refused h w1 l i idx _ Hr1 Ul Uh F1 At eq_refl) as E2.
    destruct (destroy_sim cf R pr chain issuer serial ski RF c MF (w_st w) idx old h w1 l i Hr1 Ul Uh O1 O2 S1) as (w3 & E3 & Hr3 & U3); [apply G|].
    unfold finally. rewrite (then_step _ _ _ _ _ (transport_call cf R pr chain issuer serial ski RF c 119 w1 l i Hr1 Ul)).
    erewrite must_fail_fatal_status by exact E2. change (existsb (N.eqb (get_error_code InvalidArgument)) [StatusInvalidArgument]) with true. cbv iota. rewrite E3.
    exists (Some tt), [], w3. split; [reflexivity|]. split; [exact Hr3|]. right. auto.
  Qed.

  (** A test without complaints, taken apart. *)
  Lemma then_nil {A B} (m : test device A) (f : A -> test device B) b r b' : andthen device m f b = (r, [], b') ->
    (exists a b1, m b = (Some a, [], b1) /\ f a b1 = (r, [], b')) \/ m b = (None, [], b').
  Proof.
    unfold andthen. destruct (m b) as [[[a|] cs] b1]; [|intros [= <- -> ->]; auto].
    destruct (f a b1) as [[r2 l2] b2] eqn:E. intros [= -> Ec ->]. apply app_eq_nil in Ec as [-> ->]. left. exists a, b1. auto.
  Qed.
  Lemma vthen_nil {V A B} (m : vtest device V A) (f : A -> vtest device V B) v b r v' b' : vthen device m f v b = (r, [], v', b') ->
    (exists a v1 b1, m v b = (Some a, [], v1, b1) /\ f a v1 b1 = (r, [], v', b')) \/ m v b = (None, [], v', b').
  Proof.
    unfold vthen. destruct (m v b) as [[[[a|] cs] v1] b1]; [|intros [= <- -> -> ->]; auto].
    destruct (f a v1 b1) as [[[r2 l2] v2] b2] eqn:E. intros [= -> Ec -> ->]. apply app_eq_nil in Ec as [-> ->]. left. exists a, v1, b1. auto.
  Qed.
  Lemma vfinally_nil {V A} (m : vtest device V A) d v b r v' b' : vfinally device m d v b = (r, [], v', b') -> exists b1, m v b = (r, [], v', b1).
  Proof.
    unfold vfinally. destruct (m v b) as [[[a cs] v1] b1]. destruct (d v1 b1) as [[r2 l2] b2]. intros [= -> Ec -> ->]. apply app_eq_nil in Ec as [-> ->]. eauto.
  Qed.
  Lemma vlift_nil {V A} (m : test device A) (v : V) b r v' b' : vlift device m v b = (r, [], v', b') -> m b = (r, [], b').
  Proof. unfold vlift. destruct (m b) as [[a cs] b1]. intros [= -> -> -> ->]. reflexivity. Qed.
  Lemma local_nil {V A} (v : V) (m : vtest device V A) b r b' : local device v m b = (r, [], b') -> exists v', m v b = (r, [], v', b').
  Proof. unfold local. destruct (m v b) as [[[a cs] v1] b1]. intros [= -> -> ->]. eauto. Qed.
  Lemma derive_nil q n b r b' v b1 : call q b = (Some v, [], b1) -> must_derive device send c q n b = (r, [], b') ->
    exists x y z t u, v = GoOk (VDerived x y z t u) /\ r = Some (x, y) /\ b' = b1.
  Proof.
    intros E. unfold must_derive. rewrite (then_step _ _ _ _ _ E).
    destruct v as [[]| | |]; cbn [done stopped crashed]; unfold done, stopped, crashed; intros [= <- ?]; subst; try discriminate; eauto 9.
  Qed.
  Lemma fail_nil q sts n1 n2 b r b' v b1 : call q b = (Some v, [], b1) -> must_fail device send c q sts n1 n2 b = (r, [], b') ->
    exists e, v = GoErr e /\ existsb (is_status e) sts = true /\ r = Some tt /\ b' = b1.
  Proof.
    intros E. unfold must_fail. rewrite (then_step _ _ _ _ _ E). destruct v as [x|e| |]; unfold failed, crashed, check; try discriminate.
    destruct (existsb (is_status e) sts) eqn:X; unfold done, failed; [|discriminate]. intros [= <- ?]. subst. eauto.
  Qed.

  (** TestDeriveContextSimulation always complains: it wants one request refused and then
      granted with nothing in between. *)
  Lemma derive_simulation_complains w l i r cs b' : reachable cf (w_st w) -> u32 l -> test_derive_simulation device send sup c (at_ w l i) = (r, cs, b') -> cs <> [].
  Proof.
    intros Hr Ul E ->. unfold test_derive_simulation in E.
    destruct (gs_simulation sup) eqn:Gs; [|unfold initial_handle in E; rewrite Gs in E; discriminate].
    destruct (initial_sim cf R pr chain issuer serial ski RF sup c MF w l i Hr Ul Gs) as (v & w1 & _ & Hr1 & [(e & -> & S1 & Ei & X)|(h & idx & old & -> & Uh & G & Sp & O1 & O2 & S1 & Ei)]).
    { rewrite (then_none _ _ _ _ _ Ei) in E. discriminate. }
    rewrite (then_step _ _ _ _ _ Ei) in E. apply local_nil in E as (v' & E). apply vfinally_nil in E as (b1 & E).
    apply vthen_nil in E as [(p & v1 & b2 & T1 & E)|T1]; unfold vlift at 1 in T1; rewrite (transport_call cf R pr chain issuer serial ski RF c 406 w1 l i Hr1 Ul) in T1; [|discriminate].
    injection T1 as <- <- <-. cbv zeta in E.
    apply vthen_nil in E as [(l0 & v1 & b2 & T2 & E)|T2]; [|discriminate]. cbv in T2. injection T2 as <- <- <-.
    assert (Uo : u32 ((l + 1) mod 2 ^ 32)) by (apply N.mod_lt; discriminate).
    set (o := ((l + 1) mod 2 ^ 32)) in *.
    destruct (derive_live cf R pr chain issuer serial ski RF c MF h (zeros (own_profile cf)) MakeDefault 0 0 w1 l i Hr1 Ul Uh Uz eq_refl eq_refl eq_refl eq_refl) as (v2 & w2 & C2 & Hr2 & _).
    apply vthen_nil in E as [(a & v1 & b2 & T3 & E)|T3]; apply vlift_nil in T3; destruct (fail_nil _ _ _ _ _ _ _ _ _ C2 T3) as (e2 & _ & _ & Y & ->); [|discriminate].
    destruct (derive_live cf R pr chain issuer serial ski RF c MF h (zeros (own_profile cf)) (N.lor (N.lor ChangeLocality RetainParent) MakeDefault) 0 o w2 l i Hr2 Ul Uh Uz eq_refl eq_refl Uo eq_refl) as (v3 & w3 & C3 & Hr3 & D3).
    apply vthen_nil in E as [(r1 & v4 & b4 & T4 & E)|T4]; apply vlift_nil in T4; destruct (derive_nil _ _ _ _ _ _ _ C3 T4) as (ch & ph & z & t & u & -> & Y4 & ->); [|discriminate].
    injection Y4 as ->. destruct D3 as [(e3 & Q & _)|(ch' & ph' & Q & Bc & _)]; [discriminate|]. injection Q as <- _ _ _ _. cbn [fst snd] in E.
    apply vthen_nil in E as [(a5 & v5 & b5 & T5 & E)|T5]; [|discriminate]. injection T5 as <- <- <-.
    apply vfinally_nil in E as (b6 & E). apply vthen_nil in E as [(a7 & v7 & b7 & T7 & E)|T7]; [|discriminate]. cbv in T7. injection T7 as <- <- <-.
    apply vfinally_nil in E as (b8 & E).
    destruct (derive_live cf R pr chain issuer serial ski RF c MF ch (zeros (own_profile cf)) RetainParent 0 0 w3 o i Hr3 Uo Bc Uz eq_refl eq_refl eq_refl eq_refl) as (v8 & w8 & C8 & Hr8 & D8).
    apply vthen_nil in E as [(a8 & v9 & b9 & T8 & E)|T8]; apply vlift_nil in T8; destruct (fail_nil _ _ _ _ _ _ _ _ _ C8 T8) as (e8 & -> & X8 & Y8 & ->); [|discriminate].
    destruct D8 as [(e & Q & S8 & D8)|(? & ? & Q & _)]; [|discriminate]. injection Q as ->.
    destruct (derive_live cf R pr chain issuer serial ski RF c MF ch (zeros (own_profile cf)) RetainParent 0 0 w8 o i Hr8 Uo Bc Uz eq_refl eq_refl eq_refl eq_refl) as (v10 & w10 & C10 & Hr10 & D10).
    apply vthen_nil in E as [(a11 & v11 & b11 & T11 & E)|T11]; apply vlift_nil in T11; destruct (derive_nil _ _ _ _ _ _ _ C10 T11) as (c2 & p2 & z2 & t2 & u2 & -> & _); 
      (destruct D10 as [(e3 & Q & _)|(ch9 & ph9 & Q & _ & _ & D10)]; [discriminate|]); rewrite S8 in D10;
      change (N.testbit RetainParent 24) with false in D10; cbv iota in D10; destruct D10 as (p3 & pc & q & dg & F & A & _ & _ & _ & _ & N1 & N2 & _);
      cbn [existsb is_status] in X8; rewrite orb_false_r in X8; apply N.eqb_eq in X8;
      (destruct D8 as [(-> & _)|[ON|[(-> & _)|(j & x & F8 & A8 & D8)]]]; [discriminate X8| |discriminate X8|]);
      [destruct ON as [_ [(-> & _)|(-> & _)]]; discriminate X8| |destruct ON as [_ [(-> & _)|(-> & _)]]; discriminate X8|];
      pose proof (first_unique _ _ _ F F8) as <-; (assert (x = pc) by (unfold at_slot in *; congruence)); subst x;
      (destruct D8 as [(_ & D8)|[(D8 & _)|(_ & [(-> & _)|(_ & D8)])]]; [exact (N1 D8)|discriminate D8|discriminate X8|exact (N2 D8)]).
  Qed.
End Tests.
