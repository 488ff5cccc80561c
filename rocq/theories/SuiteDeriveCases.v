(** SuiteDeriveCases.v -- what the tests of DeriveContext of the verification suite report
    on a device with one default context: proofs. *)
From Coq Require Import Permutation.
From Verif Require Import Base Errors Types StateOps Env Wire Instance Commands RespBuf Response X509 X509Cert RustCrypto DefaultPlatform Simulator GoClient Suite ClientSpec
  Lib Spec Exec Effects Forest History WireSpec Contract Codec Steps Reach CommandSpecs Responses Execute Walk Measure Reasons Explain Avail X509Spec X509Cmd X509Facts
  X509Fit X509Fail X509Sane PlatformProofs RustProofs Trace TraceCmds TraceRust RefFaults Props_Commands Props_Avail Props_Reference Props_Size Props_Fail Props_Calls
  Props_Handles Props_Tree Props_Harness SimulatorProofs Props_Simulator ClientProofs ClientChain Props_Client SuiteProofs SuiteCases Denials SuiteNegative SuiteDerive SuiteDeriveLive SuiteDeriveState SuiteFollow.
Local Open Scope N_scope.

Section Cases.
  Variable cf : config.
  Variable R : Type.
  Variable pr : primitives R.
  Variables chain issuer serial ski : bytes.
  Notation dig := (backend_digest (prof cf)).
  Hypothesis RF : reference cf pr dig chain issuer serial ski.
  Notation ops := (sim_ops cf R pr).
  Notation plat := (sim_platform chain issuer serial ski).
  Notation send := (sim_send cf R pr chain issuer serial ski).
  Notation runs := (runs_to cf R pr chain issuer serial ski).
  Notation device := (option (world (rust_c R) unit)).
  Variable sup : go_support.
  Variable c : go_client.
  Hypothesis MF : made_for cf c.
  Notation call := (Suite.call device send c).
  Notation k := (cl_kind c).
  Let Hcf : config_ok cf := rf_config _ _ _ _ _ _ _ RF.
  Let derive := derive_live cf R pr chain issuer serial ski RF c MF.
  Let destroy := destroy_live cf R pr chain issuer serial ski RF c MF.
  Let rotate := rotate_live cf R pr chain issuer serial ski RF c MF.

  (** A DeriveContext that keeps the parent and answers with one handle for both contexts:
      the generator gave the same value twice. *)
  Definition twins (q : go_call) (v : go_result go_value) : Prop :=
    exists h d f ty tl h' z t u, q = GcDerive h d f ty tl /\ N.testbit f 29 = true /\ v = GoOk (VDerived h' h' z t u) /\ h' <> repeat 0 16.
  (** A call that drew eight handles in a row, none of which could be used, or such twins. *)
  Definition unlucky_call (b b' : bench device) : Prop :=
    exists w w' l i q v, b = at_ w l i /\ b' = at_ w' l i /\ call q b = (Some v, [], b') /\ (eight_draws cf pr dig w w' \/ twins q v).
  Notation fine := (fine device send c unlucky_call).
  Notation vfine := (vfine device send c unlucky_call).
  Notation follows := (follows device send c).

  Lemma fine_call {A} q (f : _ -> test device A) b Q v b1 : call q b = (Some v, [], b1) -> (forall a, follows (f a)) ->
    unlucky_call b b1 \/ fine (f v) b1 Q -> fine (andthen device (call q) f) b Q.
  Proof.
    intros E F [H|H].
    - destruct (f v b1) as [[r l] b2] eqn:E2. eapply fine_harm; [exact H|rewrite (then_step _ _ _ _ _ E); exact E2|]. pose proof (F v b1) as X. rewrite E2 in X. exact X.
    - apply fine_then; [apply f_call|exact F|]. eapply fine_is; [exact E|exact H].
  Qed.

  (** What a successful DeriveContext leaves. *)
  Definition derived (h d : bytes) (f ty tl l : N) (w w' : world (rust_c R) unit) (p : nat) (pc : context) (L : list (nat * context)) (ch ph : bytes) : Prop :=
    exists q dg, reachable cf (w_st w') /\ byte_string 16 ch /\ byte_string 16 ph /\ same_globals (w_st w) (w_st w') /\ (q < 64)%nat /\
      holds (w_st w') ((p, parent_after pc q f ph) :: (q, born pc p f ty l tl d dg ch) :: L) /\
      (if N.testbit f 28 then ch = repeat 0 16 else ch <> repeat 0 16 /\ Forall (fun e => c_handle (snd e) <> ch) ((p, pc) :: L)) /\
      (if N.testbit f 29 then (h = repeat 0 16 /\ ph = repeat 0 16) \/ (h <> repeat 0 16 /\ ph <> repeat 0 16 /\ Forall (fun e => c_handle (snd e) <> ph) ((p, pc) :: L)) else ph = repeat 255 16) /\
      (N.testbit f 29 = true -> ch <> repeat 0 16 -> ch <> ph).

  Lemma gen_free s L h : holds s L -> gen_ok s h -> h <> repeat 0 16 /\ Forall (fun e => c_handle (snd e) <> h) L.
  Proof.
    intros H (A & _ & _ & B). split; [exact A|]. apply Forall_forall. intros (i & x) I. apply B. destruct (ho_in _ _ H i x I) as [Q _]. eapply nth_error_In; exact Q.
  Qed.

  Lemma derive_goes {A} h d f ty tl w l i p pc L (g : _ -> test device A) Q :
    reachable cf (w_st w) -> u32 l -> byte_string 16 h -> byte_string (label_size k) d -> u32 f -> u32 ty -> u32 tl ->
    N.testbit f 23 = false -> N.testbit f 24 = false ->
    holds (w_st w) ((p, pc) :: L) -> c_state pc = Active -> c_locality pc = l -> c_handle pc = h -> Forall (unnamed h l) L ->
    ~ unsupported_option (w_st w) f -> (S (length L) < max_handles cf)%nat ->
    (N.testbit f 25 = true -> c_x509 pc = true) ->
    Forall (fun e => c_parent (snd e) = p -> tci_type (c_tci (snd e)) <> ty) ((p, pc) :: L) ->
    (if N.testbit f 28
     then Forall (fun e => ~ (c_state (snd e) = Active /\ c_locality (snd e) = target_of f l tl)) L /\ (target_of f l tl = l -> h = repeat 0 16 /\ N.testbit f 29 = false)
     else Forall (unnamed (repeat 0 16) (target_of f l tl)) L /\ (N.testbit f 29 = true -> h = repeat 0 16 -> target_of f l tl <> l)) ->
    (forall a, follows (g a)) ->
    (forall w' ch ph, derived h d f ty tl l w w' p pc L ch ph -> fine (g (GoOk (VDerived ch ph (repeat 0 32) 0 []))) (at_ w' l i) Q) ->
    fine (andthen device (call (GcDerive h d f ty tl)) g) (at_ w l i) Q.
  Proof.
    intros Hr Ul Uh Ud Uf Ut Utl B23 B24 H A1 A2 A3 UN NU Rm BX SIB SAFE FG K.
    pose proof (reachable_wf cf Hcf _ Hr) as W.
    pose proof (holds_sole _ _ _ _ _ _ H A1 A2 A3 UN) as F. pose proof (holds_head _ _ _ _ H) as [Hp Lp].
    destruct (derive h d f ty tl w l i Hr Ul Uh Ud Uf Ut Utl B23) as (v & w' & E & Hr' & [(e & -> & S & X)|(ch & ph & -> & Bc & Bp & M)]).
    - apply (fine_call _ _ _ _ _ _ E FG). left. do 6 eexists. split; [reflexivity|]. split; [reflexivity|]. split; [exact E|]. left.
      destruct X as [(_ & X)|[(X & _)|[(_ & X)|(j & x & F2 & Hx & X)]]]; [contradiction|destruct (X p); apply F|exact X|]. exfalso.
      pose proof (first_unique _ _ _ F2 F) as ->. assert (x = pc) by (unfold at_slot in *; congruence). subst x.
      destruct X as [(_ & X)|[(X & _)|(_ & [(_ & X)|(_ & X)])]]; [|congruence|exact (holds_room cf _ _ W H ltac:(cbn [length]; lia) X)|].
      + destruct X as [(X & Y)|[(X & _)|[(X & _)|(_ & a & y & Y1 & Y2 & Y3)]]]; cbn [derive_req dc_flags dc_tci_type] in *; try congruence; [specialize (BX X); congruence|].
        destruct Y2 as (z & Z1 & Z2 & Z3). assert (z = y) by (unfold at_slot in *; congruence). subst z.
        rewrite Forall_forall in SIB. exact (SIB (a, y) (ho_all _ _ H _ _ Z1 Z2) Z3 Y3).
      + unfold unsafe_child in X. cbn [derive_req dc_flags] in X. destruct (N.testbit f 28).
        * destruct X as (a & y & Y1 & Y2 & Y3 & Y4). destruct SAFE as [SF1 SF2]. assert (Ly : live y) by (unfold live; congruence).
          destruct (ho_all _ _ H _ _ Y1 Ly) as [Ea|I]; [injection Ea as <- <-|rewrite Forall_forall in SF1; apply (SF1 _ I); cbn [snd]; auto].
          destruct (SF2 ltac:(congruence)) as [-> S29]. destruct Y4 as [Y4|[Y4|Y4]]; congruence.
        * destruct X as (a & [(y & Y1 & Y2 & Y3 & Y4) _] & Y5). destruct SAFE as [SF1 SF2]. assert (Ly : live y) by (unfold live; congruence).
          destruct (ho_all _ _ H _ _ Y1 Ly) as [Ea|I]; [injection Ea as <- <-|rewrite Forall_forall in SF1; apply (SF1 _ I); cbn [snd]; auto].
          destruct Y5 as [Y5|Y5]; [congruence|]. apply (SF2 Y5); congruence.
    - assert (TW : twins (GcDerive h d f ty tl) (GoOk (VDerived ch ph (repeat 0 32) 0 [])) \/ (N.testbit f 29 = true -> ch <> repeat 0 16 -> ch <> ph)).
      { destruct (N.testbit f 29) eqn:B29; [|right; discriminate]. destruct (list_eq_dec N.eq_dec ch (repeat 0 16)) as [Z|Z]; [right; intros _ Y; destruct (Y Z)|].
        destruct (list_eq_dec N.eq_dec ch ph) as [<-|Y]; [left|right; auto]. do 9 eexists. split; [reflexivity|]. split; [exact B29|]. split; [reflexivity|exact Z]. }
      apply (fine_call _ _ _ _ _ _ E FG). destruct TW as [TW|NR]; [left; do 6 eexists; split; [reflexivity|]; split; [reflexivity|]; split; [exact E|right; exact TW]|].
      right. apply K. rewrite B24 in M. destruct M as (p2 & pc2 & q & dg & F2 & Hp2 & IQ & Nq & S & _ & _ & _ & HC & HP).
      pose proof (first_unique _ _ _ F2 F) as ->. assert (pc2 = pc) by (unfold at_slot in *; congruence). subst pc2.
      exists q, dg. destruct IQ as [(old & O1 & O2) _]. pose proof (holds_add _ q old (born pc p f ty l tl d dg ch) _ H O1 O2 ltac:(discriminate)) as H1.
      apply holds_swap in H1. pose proof (holds_put _ p pc (parent_after pc q f ph) _ H1 ltac:(unfold live; cbn; destruct (N.testbit f 29); discriminate)) as H2.
      split; [exact Hr'|]. split; [exact Bc|]. split; [exact Bp|]. split; [rewrite S; repeat split|]. split; [exact (slot_64 cf Hcf _ _ _ W O1)|]. split; [rewrite S; exact H2|].
      split; [destruct (N.testbit f 28); [exact HC|exact (gen_free _ _ _ H HC)]|]. split; [|exact NR].
      destruct (N.testbit f 29); [|exact HP]. destruct HP as [HP|[HP1 HP2]]; [left; exact HP|right; split; [exact HP1|exact (gen_free _ _ _ H HP2)]].
  Qed.

  (** A DeriveContext that must fail, and does. *)
  Lemma derive_stops h d f ty tl w l i p pc L l1 l2 (Q : unit -> bench device -> Prop) :
    reachable cf (w_st w) -> u32 l -> byte_string 16 h -> byte_string (label_size k) d -> u32 f -> u32 ty -> u32 tl ->
    N.testbit f 23 = false -> (N.testbit f 24 = true -> N.testbit f 27 = false) ->
    holds (w_st w) ((p, pc) :: L) -> c_state pc = Active -> c_locality pc = l -> c_handle pc = h -> Forall (unnamed h l) L ->
    ~ unsupported_option (w_st w) f -> (S (length L) < max_handles cf)%nat ->
    (bad_request (w_st w) (derive_req h d f ty tl) p pc \/ (N.testbit f 24 = false /\ unsafe_child (derive_req h d f ty tl) (target_of f l tl) (w_st w) p)) ->
    (forall w', reachable cf (w_st w') -> w_st w' = w_st w -> Q tt (at_ w' l i)) ->
    fine (must_fail device send c (GcDerive h d f ty tl) [StatusInvalidArgument] l1 l2) (at_ w l i) Q.
  Proof.
    intros Hr Ul Uh Ud Uf Ut Utl B23 B27 H A1 A2 A3 UN NU Rm BAD K.
    pose proof (reachable_wf cf Hcf _ Hr) as W. unfold must_fail.
    pose proof (holds_sole _ _ _ _ _ _ H A1 A2 A3 UN) as F. pose proof (holds_head _ _ _ _ H) as [Hp Lp].
    assert (FG : forall a : go_result go_value, follows (match a with GoErr e => check device (existsb (is_status e) [StatusInvalidArgument]) l2 | GoOk _ => failed device l1 | _ => crashed device end)).
    { intros a. follow. }
    destruct (derive h d f ty tl w l i Hr Ul Uh Ud Uf Ut Utl B23) as (v & w' & E & Hr' & [(e & -> & S & X)|(ch & ph & -> & Bc & Bp & M)]).
    - apply (fine_call _ _ _ _ _ _ E FG).
      assert (EE : e = InvalidArgument \/ eight_draws cf pr dig w w').
      { destruct X as [(_ & X)|[(X & _)|[(_ & X)|(j & x & F2 & Hx & X)]]]; [contradiction|destruct (X p); apply F|auto|]. left.
        destruct X as [(X & _)|[(X & [(Y & _)|(_ & Y)])|(_ & [(_ & X)|(X & _)])]]; [exact X|exact Y|exfalso; apply Y; unfold target_of; rewrite (B27 X); reflexivity| |exact X].
        exfalso. exact (holds_room cf _ _ W H ltac:(cbn [length]; lia) X). }
      destruct EE as [->|EE]; [right|left; do 6 eexists; split; [reflexivity|]; split; [reflexivity|]; split; [exact E|left; exact EE]].
      eapply fine_is; [reflexivity|]. apply K; assumption.
    - exfalso. destruct (N.testbit f 24) eqn:B24.
      + destruct M as (p2 & pc2 & tc & F2 & Hp2 & _ & _ & _ & NB & _). pose proof (first_unique _ _ _ F2 F) as ->. assert (pc2 = pc) by (unfold at_slot in *; congruence). subst pc2.
        destruct BAD as [BAD|[Q2 _]]; [contradiction|discriminate].
      + destruct M as (p2 & pc2 & q & dg & F2 & Hp2 & _ & _ & _ & _ & NB & NS & _). pose proof (first_unique _ _ _ F2 F) as ->. assert (pc2 = pc) by (unfold at_slot in *; congruence). subst pc2.
        destruct BAD as [BAD|[_ BAD]]; contradiction.
  Qed.

  (** DestroyContext of one's own context. *)
  Lemma destroy_goes {A} h w l i p pc L (g : _ -> test device A) Q :
    reachable cf (w_st w) -> u32 l -> byte_string 16 h ->
    holds (w_st w) ((p, pc) :: L) -> c_state pc = Active -> c_locality pc = l -> c_handle pc = h -> Forall (unnamed h l) L ->
    (forall a, follows (g a)) ->
    (forall w', reachable cf (w_st w') -> same_globals (w_st w) (w_st w') -> destroyed cf (w_st w) p (w_st w') -> fine (g (GoOk VNone)) (at_ w' l i) Q) ->
    fine (andthen device (call (GcDestroy h)) g) (at_ w l i) Q.
  Proof.
    intros Hr Ul Uh H A1 A2 A3 UN FG K. pose proof (holds_sole _ _ _ _ _ _ H A1 A2 A3 UN) as F.
    destruct (destroy h w l i Hr Ul Uh) as (v & w' & E & Hr' & [(e & _ & _ & X & _)|(-> & t & Ft & D)]); [destruct (X p); apply F|].
    apply (fine_call _ _ _ _ _ _ E FG). right. pose proof (first_unique _ _ _ Ft F) as ->. apply K; [exact Hr'|apply D|exact D].
  Qed.
  (** DestroyContext of something else. *)
  Lemma destroy_stops {A} h w l i L (g : _ -> test device A) Q :
    reachable cf (w_st w) -> u32 l -> byte_string 16 h ->
    holds (w_st w) L -> Forall (unnamed h l) L -> (forall a, follows (g a)) ->
    (forall e, fine (g (GoErr (GoStatus (get_error_code e)))) (at_ w l i) Q) ->
    fine (andthen device (call (GcDestroy h)) g) (at_ w l i) Q.
  Proof.
    intros Hr Ul Uh H UN FG K. destruct (destroy h w l i Hr Ul Uh) as (v & w' & E & Hr' & [(e & -> & -> & _)|(-> & t & Ft & D)]).
    - apply (fine_call _ _ _ _ _ _ E FG). right. apply K.
    - exfalso. destruct Ft as [Ft _]. exact (holds_unnamed _ _ _ _ H UN _ Ft).
  Qed.

  (** A device with its default context in a locality and nothing else. *)
  Definition lone (s : state) (l : N) (p : nat) (x : context) : Prop :=
    holds s [(p, x)] /\ c_state x = Active /\ c_locality x = l /\ c_handle x = repeat 0 16 /\ c_parent x = ROOT.

  Lemma zeros_fine : byte_string (label_size k) (zeros (own_profile cf)).
  Proof. unfold SuiteDerive.zeros. rewrite (own_digest cf c MF). apply zeros_byte_string. Qed.
  Lemma z16 : byte_string 16 (repeat 0 16). Proof. apply (zeros_byte_string 16). Qed.
  Lemma root_far q : (q < 64)%nat -> ROOT <> q. Proof. unfold ROOT. lia. Qed.

  Lemma lone_slot s l p x : reachable cf s -> lone s l p x -> (p < 64)%nat.
  Proof. intros Hr (H & _). eapply (slot_64 cf Hcf); [apply reachable_wf; eassumption|apply (holds_head _ _ _ _ H)]. Qed.
  Lemma profile_fine {V} line w l i (v : V) (Q : N -> V -> bench device -> Prop) : reachable cf (w_st w) -> u32 l -> Q (own_profile cf) v (at_ w l i) ->
    vfine (vlift device (transport_profile device send c line)) v (at_ w l i) Q.
  Proof. intros Hr Ul H. apply vfine_lift. eapply fine_is; [exact (transport_call cf R pr chain issuer serial ski RF c line w l i Hr Ul)|exact H]. Qed.
End Cases.

(** Steps of a proof about a test. *)
Ltac vstep := apply vfine_then; [follow|intros; follow|].
Ltac nodup H := let X := fresh in pose proof (ho_nodup _ _ H) as X; cbn [map fst] in X; repeat rewrite NoDup_cons_iff in X; cbn [In] in X; decompose [and] X; clear X.
