(** SuiteMaxProofs.v -- the test of the largest number of contexts: proofs. *)
From Verif Require Import Base Errors Types StateOps Env Wire Instance Commands RespBuf Response X509 X509Cert RustCrypto DefaultPlatform Simulator GoClient Suite ClientSpec
  Lib Spec Exec Effects Forest History WireSpec Contract Codec Steps Reach CommandSpecs Responses Execute Walk Measure Reasons Explain Avail X509Spec X509Cmd X509Facts
  X509Fit X509Fail X509Sane PlatformProofs RustProofs Trace TraceCmds TraceRust RefFaults Props_Commands Props_Avail Props_Reference Props_Size Props_Fail Props_Calls
  Props_Handles Props_Tree Props_Harness SimulatorProofs Props_Simulator ClientProofs ClientChain Props_Client SuiteProofs SuiteCases Denials SuiteNegative
  SuiteDerive SuiteDeriveLive SuiteDeriveState SuiteFollow SuiteDeriveCases SuiteDeriveTests SuiteInit SuiteRun SuiteDeriveRun SuiteMax.
Local Open Scope N_scope.

(** A test ends in one of several ways, or there was a mishap. *)
Section Ends.
  Variable T : Type.
  Variable send : N -> bytes -> T -> option bytes * T.
  Variable c : go_client.
  Variable harm : bench T -> bench T -> Prop.
  Notation later := (later T send c).
  Notation mishap := (mishap T send c harm).
  Notation follows := (follows T send c).
  Notation vfollows := (vfollows T send c).
  Definition ends {A} (m : test T A) (b : bench T) (P : option A -> list complaint -> bench T -> Prop) : Prop :=
    match m b with (r, l, b1) => P r l b1 \/ mishap b b1 end.
  Definition vends {V A} (m : vtest T V A) (v : V) (b : bench T) (P : option A -> list complaint -> V -> bench T -> Prop) : Prop :=
    match m v b with (r, l, v1, b1) => P r l v1 b1 \/ mishap b b1 end.

  Lemma v_get {V} : vfollows (@vget T V). Proof. intros v b. apply later_same. Qed.
  Lemma vends_fine {V A} (m : vtest T V A) v b (P : option A -> list complaint -> V -> bench T -> Prop) (Q : A -> V -> bench T -> Prop) :
    (forall a v1 b1, Q a v1 b1 -> P (Some a) [] v1 b1) -> vfine T send c harm m v b Q -> vends m v b P.
  Proof. unfold vfine, vends. destruct (m v b) as [[[r l] v1] b1]. intros K [(a & -> & -> & H)|H]; [left; auto|right; exact H]. Qed.
  Lemma vends_then {V A B} (m : vtest T V A) (f : A -> vtest T V B) v b (P : option B -> list complaint -> V -> bench T -> Prop) : vfollows m -> (forall a, vfollows (f a)) ->
    vends m v b (fun r l v1 b1 => later b b1 -> match r with Some a => l = [] /\ vends (f a) v1 b1 P | None => P None l v1 b1 end) -> vends (vthen T m f) v b P.
  Proof.
    intros Fm Ff H. unfold vends in *. unfold vthen. specialize (Fm v b). destruct (m v b) as [[[[a|] l] v1] b1] eqn:E; cbn [snd] in Fm; [|destruct H as [H|H]; [left; auto|right; exact H]].
    specialize (Ff a v1 b1). destruct (f a v1 b1) as [[[r2 l2] v2] b2]. cbn [snd] in Ff. destruct H as [H|H]; [destruct (H Fm) as [-> [H2|H2]]|].
    - left. exact H2.
    - right. eapply mishap_before; eassumption.
    - right. eapply mishap_after; eassumption.
  Qed.
  Lemma vends_finally {V A} (m : vtest T V A) (d : V -> test T unit) v b (P : option A -> list complaint -> V -> bench T -> Prop) : vfollows m -> (forall v, follows (d v)) ->
    vends m v b (fun r l v1 b1 => ends (d v1) b1 (fun _ l2 b2 => later b1 b2 -> P r (l ++ l2) v1 b2)) -> vends (vfinally T m d) v b P.
  Proof.
    intros Fm Fd H. unfold ends, vends in *. unfold vfinally. specialize (Fm v b). destruct (m v b) as [[[r l] v1] b1]. cbn [snd] in Fm. specialize (Fd v1 b1).
    destruct (d v1 b1) as [[r2 l2] b2]. cbn [snd] in Fd. destruct H as [[H|H]|H].
    - left. auto.
    - right. eapply mishap_before; eassumption.
    - right. eapply mishap_after; eassumption.
  Qed.
  Lemma vends_is {V A} (m : vtest T V A) v b r l v1 b1 (P : option A -> list complaint -> V -> bench T -> Prop) : m v b = (r, l, v1, b1) -> P r l v1 b1 -> vends m v b P.
  Proof. intros E H. unfold vends. rewrite E. left. exact H. Qed.
  Lemma vfine_weaken {V A} (m : vtest T V A) v b (Q Q' : A -> V -> bench T -> Prop) :
    (forall a v1 b1, Q a v1 b1 -> Q' a v1 b1) -> vfine T send c harm m v b Q -> vfine T send c harm m v b Q'.
  Proof. unfold vfine. destruct (m v b) as [[[r l] v1] b1]. intros K [(a & ? & ? & ?)|X]; [left; eauto|right; exact X]. Qed.
  Lemma ends_fine {A} (m : test T A) b (P : option A -> list complaint -> bench T -> Prop) (Q : A -> bench T -> Prop) :
    (forall a b1, Q a b1 -> P (Some a) [] b1) -> fine T send c harm m b Q -> ends m b P.
  Proof. unfold fine, ends. destruct (m b) as [[r l] b1]. intros K [(a & -> & -> & H)|H]; [left; auto|right; exact H]. Qed.
  Lemma vends_weaken {V A} (m : vtest T V A) v b (P P' : option A -> list complaint -> V -> bench T -> Prop) :
    (forall r l v1 b1, P r l v1 b1 -> P' r l v1 b1) -> vends m v b P -> vends m v b P'.
  Proof. unfold vends. destruct (m v b) as [[[r l] v1] b1]. intros K [H|H]; [left; auto|right; exact H]. Qed.
  Lemma ends_local {V A} (v : V) (m : vtest T V A) b P : vends m v b (fun r l _ b1 => P r l b1) -> ends (local T v m) b P.
  Proof. unfold ends, vends, local. destruct (m v b) as [[[r l] v1] b1]. auto. Qed.
  Lemma vends_lift {V A} (m : test T A) (v : V) b (P : option A -> list complaint -> V -> bench T -> Prop) : ends m b (fun r l b1 => P r l v b1) -> vends (vlift T m) v b P.
  Proof. unfold ends, vends, vlift. destruct (m b) as [[r l] b1]. auto. Qed.
  Lemma ends_is {A} (m : test T A) b r l b1 (P : option A -> list complaint -> bench T -> Prop) : m b = (r, l, b1) -> P r l b1 -> ends m b P.
  Proof. intros E H. unfold ends. rewrite E. left. exact H. Qed.
  Lemma ends_call {A} q (f : go_result go_value -> test T A) b v b1 (P : option A -> list complaint -> bench T -> Prop) :
    Suite.call T send c q b = (Some v, [], b1) -> (forall a, follows (f a)) -> harm b b1 \/ ends (f v) b1 P -> ends (andthen T (Suite.call T send c q) f) b P.
  Proof.
    intros E F H. assert (L1 : later b b1) by (eapply later_call; [exact E|apply later_same]). unfold ends in *. rewrite (then_step _ _ _ _ _ E).
    specialize (F v b1). destruct (f v b1) as [[r l] b2]. cbn [snd] in F. destruct H as [H|[H|H]]; [right; exists b, b1; split; [apply later_same|auto]|left; exact H|right].
    eapply mishap_before; eassumption.
  Qed.
  Lemma ends_start {A B} (a : A) (f : A -> test T B) b P : ends (f a) b P -> ends (andthen T (done T a) f) b P.
  Proof. unfold ends, andthen, done. destruct (f a b) as [[r l] b1]. auto. Qed.
  Lemma vends_call {V A} q (f : go_result go_value -> vtest T V A) v b r b1 (P : option A -> list complaint -> V -> bench T -> Prop) :
    Suite.call T send c q b = (Some r, [], b1) -> (forall a, vfollows (f a)) -> harm b b1 \/ (later b b1 -> vends (f r) v b1 P) -> vends (vthen T (vlift T (Suite.call T send c q)) f) v b P.
  Proof.
    intros E F H. assert (L1 : later b b1) by (eapply later_call; [exact E|apply later_same]). unfold vends, vthen, vlift in *. rewrite E.
    specialize (F r v b1). destruct (f r v b1) as [[[r2 l] v2] b2]. cbn [snd app] in *. destruct H as [H|H]; [right; exists b, b1; split; [apply later_same|auto]|].
    destruct (H L1) as [H2|H2]; [left; exact H2|right]. eapply mishap_before; eassumption.
  Qed.
End Ends.

Lemma v_chain T send c n d : vfollows T send c (derive_chain T send c n d).
Proof. induction n as [|n IH]; cbn [derive_chain]; follow; [apply v_get|exact IH]. Qed.
Ltac follow_now ::=
  match goal with
  | |- vfollows _ _ _ (vget _) => apply v_get
  | |- follows _ _ _ (andthen _ _ _) => apply f_then; [|intros]
  | |- follows _ _ _ (finally _ _ _) => apply f_finally
  | |- follows _ _ _ (local _ _ _) => apply f_local
  | |- follows _ _ _ (Suite.call _ _ _ _) => apply f_call
  | |- follows _ _ _ (done _ _) => apply f_done
  | |- follows _ _ _ (failed _ _) => apply f_failed
  | |- follows _ _ _ (stopped _ _) => apply f_stopped
  | |- follows _ _ _ (crashed _) => apply f_crashed
  | |- follows _ _ _ (must _ _ _) => apply f_must
  | |- vfollows _ _ _ (derive_chain _ _ _ _ _) => apply v_chain
  | |- vfollows _ _ _ (vlift _ _) => apply v_lift
  | |- vfollows _ _ _ (vset _ _) => apply v_set
  | |- vfollows _ _ _ (vthen _ _ _) => apply v_then; [|intros]
  | |- vfollows _ _ _ (vfinally _ _ _) => apply v_finally; [|intros]
  | |- _ => progress unfold ignore, must_fail_fatal, transport_profile, must_derive
  | |- follows _ _ _ (match ?x with _ => _ end) => destruct x
  | |- vfollows _ _ _ (match ?x with _ => _ end) => destruct x
  end.
(** Contexts each of which is the parent of the one before it; the last is a root. *)
Inductive linked : list (nat * context) -> Prop :=
| linked_root p x : c_parent x = ROOT -> linked [(p, x)]
| linked_child q x p y L : c_parent x = p -> linked ((p, y) :: L) -> linked ((q, x) :: (p, y) :: L).
Lemma linked_head p x y L : c_parent y = c_parent x -> linked ((p, x) :: L) -> linked ((p, y) :: L).
Proof. intros E H. inversion H; subst; constructor; congruence. Qed.
Lemma linked_parents L : linked L -> forall i x, In (i, x) L -> c_parent x = ROOT \/ In (c_parent x) (map fst (tl L)).
Proof.
  induction 1 as [p x E|q x p y L E H IH]; intros i z [I|I].
  - injection I as <- <-. auto.
  - destruct I.
  - injection I as <- <-. right. cbn. auto.
  - destruct (IH i z I) as [Q|Q]; [auto|right]. cbn [tl map fst]. right. exact Q.
Qed.
Lemma linked_leaf p x L : linked ((p, x) :: L) -> NoDup (map fst ((p, x) :: L)) -> p <> ROOT -> Forall (fun e => c_parent (snd e) <> p) ((p, x) :: L).
Proof.
  intros H N R. apply Forall_forall. intros (i & y) I E. cbn [snd] in E. destruct (linked_parents _ H i y I) as [Q|Q]; [congruence|]. cbn [tl] in Q. rewrite E in Q.
  cbn [map fst] in N. inversion N; contradiction.
Qed.

(** The contexts in use are a chain: its leaf is active, belongs to [l], has the handle [h]
    and may issue certificates; the other [n] are retired. *)
Definition tower (s : state) (l : N) (h : bytes) (n : nat) : Prop :=
  exists p x L, holds s ((p, x) :: L) /\ length L = n /\ linked ((p, x) :: L) /\ c_state x = Active /\ c_locality x = l /\ c_handle x = h /\ c_x509 x = true /\
    Forall (fun e => c_state (snd e) = Retired) L.

Lemma tower_doomed s p x L : holds s ((p, x) :: L) -> linked ((p, x) :: L) -> (forall i, In i (map fst ((p, x) :: L)) -> i <> ROOT) ->
  Forall (fun e => c_state (snd e) = Retired) L -> forall i y, In (i, y) ((p, x) :: L) -> doomed s p i.
Proof.
  intros H K RT RE.
  assert (G : forall suf pre q z, (p, x) :: L = pre ++ (q, z) :: suf -> linked ((q, z) :: suf) -> (forall i y, In (i, y) (pre ++ [(q, z)]) -> doomed s p i) ->
            forall i y, In (i, y) ((p, x) :: L) -> doomed s p i).
  { induction suf as [|(r & u) suf IH]; intros pre q z E LK D i y I.
    - rewrite E in I. eauto.
    - inversion LK as [|? ? ? ? ? PZ LK']; subst.
      eapply (IH (pre ++ [(q, z)]) (c_parent z) u); [rewrite E, <- app_assoc; reflexivity|exact LK'| |exact I].
      intros j t J. apply in_app_iff in J as [J|[J|[]]]; [eauto|]. injection J as <- <-.
      assert (IU : In (c_parent z, u) ((p, x) :: L)) by (rewrite E; apply in_app_iff; right; right; left; reflexivity).
      assert (IZ : In (q, z) ((p, x) :: L)) by (rewrite E; apply in_app_iff; right; left; reflexivity).
      assert (NP : c_parent z <> p).
      { pose proof (linked_leaf p x L K (ho_nodup _ _ H) (RT p (or_introl eq_refl))) as F. rewrite Forall_forall in F. exact (F _ IZ). }
      assert (RU : c_state u = Retired).
      { destruct IU as [Q|IU]; [injection Q as Q _; congruence|]. rewrite Forall_forall in RE. exact (RE _ IU). }
      destruct (ho_in _ _ H _ _ IZ) as [HZ LZ]. destruct (ho_in _ _ H _ _ IU) as [HU LU].
      apply (doomed_retired s p (c_parent z) u q); [exact HU|exact RU|exists z; auto|]. intros j (t & J1 & J2 & J3).
      pose proof (ho_all _ _ H _ _ J1 J2) as J. rewrite E in J. replace (pre ++ (q, z) :: (c_parent z, u) :: suf) with ((pre ++ [(q, z)]) ++ (c_parent z, u) :: suf) in J by (rewrite <- app_assoc; reflexivity).
      apply in_app_iff in J as [J|J]; [eauto|]. exfalso.
      assert (N2 : NoDup (map fst ((c_parent z, u) :: suf))).
      { pose proof (ho_nodup _ _ H) as N. rewrite E in N. rewrite map_app in N. cbn [map] in N. apply NoDup_remove in N as [N _]. cbn [map]. clear -N.
        induction (map fst pre) as [|a m IH]; [exact N|]. inversion N; auto. }
      assert (RR : c_parent z <> ROOT) by (apply RT; apply in_map_iff; exists (c_parent z, u); auto).
      pose proof (linked_leaf _ _ _ LK' N2 RR) as F. rewrite Forall_forall in F. exact (F _ J J3). }
  eapply (G L [] p x eq_refl K). intros i y [I|[]]. injection I as <- _. constructor.
Qed.

Lemma tower_full cf s l h n : wf cf s -> tower s l h n -> S n = max_handles cf -> Reasons.full s.
Proof.
  intros W (p & x & L & H & Ln & _) E i y Hy.
  assert (I : incl (seq 0 (max_handles cf)) (map fst ((p, x) :: L))).
  { apply NoDup_length_incl; [exact (ho_nodup _ _ H)|rewrite seq_length, map_length; cbn [length]; lia|].
    intros j J. apply in_map_iff in J as ((a & z) & <- & J). destruct (ho_in _ _ H _ _ J) as [Q _]. apply at_lt in Q. rewrite (fo_size _ _ (wf_forest _ _ W)) in Q.
    apply in_seq. cbn [fst]. lia. }
  assert (Q : In i (seq 0 (max_handles cf))) by (apply at_lt in Hy; rewrite (fo_size _ _ (wf_forest _ _ W)) in Hy; apply in_seq; lia).
  apply I, in_map_iff in Q as ((a & z) & <- & J). cbn [fst] in Hy. destruct (ho_in _ _ H _ _ J) as [Q1 Q2]. unfold at_slot in *. assert (y = z) by congruence. subst. exact Q2.
Qed.

Section Max.
  Variable cf : config.
  Variable R : Type.
  Variable pr : primitives R.
  Variables chain issuer serial ski : bytes.
  Notation dig := (backend_digest (prof cf)).
  Hypothesis RF : reference cf pr dig chain issuer serial ski.
  Notation ops := (sim_ops cf R pr).
  Notation plat := (sim_platform chain issuer serial ski).
  Notation send := (sim_send cf R pr chain issuer serial ski).
  Notation device := (option (world (rust_c R) unit)).
  Variable sup : go_support.
  Variable c : go_client.
  Hypothesis MF : made_for cf c.
  Variable parses : bytes -> bool.
  Notation call := (Suite.call device send c).
  Notation k := (cl_kind c).
  Let Hcf : config_ok cf := rf_config _ _ _ _ _ _ _ RF.
  Notation harm := (unlucky_call cf R pr chain issuer serial ski c).
  Notation fine := (fine device send c harm).
  Notation vfine := (vfine device send c harm).
  Notation ends := (ends device send c harm).
  Notation vends := (vends device send c harm).
  Notation derive_goes := (derive_goes cf R pr chain issuer serial ski RF c MF).
  Notation destroy_goes := (destroy_goes cf R pr chain issuer serial ski RF c MF).
  Let derive := derive_live cf R pr chain issuer serial ski RF c MF.
  Let Uz := zeros_fine cf c MF.
  Notation z := (SuiteDerive.zeros (own_profile cf)).
  Let wfr s (H : reachable cf s) := reachable_wf cf Hcf s H.

  Lemma retired_unnamed h l L : Forall (fun e => c_state (snd e) = Retired) L -> Forall (unnamed h l) L.
  Proof. apply Forall_impl. intros e E (Q & _). congruence. Qed.
  Lemma tower_slots s p x L : reachable cf s -> holds s ((p, x) :: L) -> forall i, In i (map fst ((p, x) :: L)) -> i <> ROOT.
  Proof.
    intros Hr H i I. apply in_map_iff in I as ((a & y) & <- & I). destruct (ho_in _ _ H _ _ I) as [Q _]. pose proof (slot_64 cf Hcf _ _ _ (wfr _ Hr) Q). cbn [fst]. unfold ROOT. lia.
  Qed.

  (** The loop. *)
  Lemma chain_fine n : forall m h w l i, reachable cf (w_st w) -> u32 l -> byte_string 16 h -> supports (w_st w) X509 -> tower (w_st w) l h m -> (m + n < max_handles cf)%nat ->
    vfine (derive_chain device send c n z) h (at_ w l i)
      (fun _ h' b => exists w', b = at_ w' l i /\ reachable cf (w_st w') /\ byte_string 16 h' /\ same_globals (w_st w) (w_st w') /\ tower (w_st w') l h' (m + n)).
  Proof.
    induction n as [|n IH]; intros m h w l i Hr Ul Uh SX TW Lt; cbn [derive_chain].
    { apply vfine_lift. eapply fine_is; [reflexivity|]. exists w. rewrite Nat.add_0_r. repeat split; assumption || apply Uh. }
    vstep. left. exists h. split; [reflexivity|]. split; [reflexivity|].
    destruct TW as (p & x & L & H & Ln & LK & A1 & A2 & A3 & A4 & RE).
    pose proof (linked_leaf p x L LK (ho_nodup _ _ H) (tower_slots _ _ _ _ Hr H p (or_introl eq_refl))) as LF.
    vstep. apply vfine_lift. unfold must_derive.
    eapply (derive_goes h z InputAllowX509 0 0 w l i p x L); sides.
    { apply retired_unnamed; exact RE. }
    { intros _; exact A4. }
    { rewrite Forall_forall in *. intros e E1 E2. destruct (LF e E1 E2). }
    { cbv [N.testbit InputAllowX509]. split; [apply retired_unnamed; exact RE|discriminate]. }
    intros w1 ch ph (q & dg & Hr1 & Bc & Bp & G & Q64 & J & (C0 & C1) & Ph & _). eapply fine_is; [reflexivity|]. cbn [fst].
    vstep. apply vfine_set. replace (m + S n)%nat with (S m + n)%nat by lia.
    assert (SX1 : supports (w_st w1) X509) by (unfold supports in *; destruct G as (_ & _ & -> & _); exact SX).
    assert (T1 : tower (w_st w1) l ch (S m)).
    { apply holds_swap in J. exists q, (born x p InputAllowX509 0 l 0 z dg ch), ((p, parent_after x q InputAllowX509 ph) :: L). split; [exact J|].
      split; [cbn [length]; lia|]. split; [apply linked_child; [reflexivity|]; eapply linked_head; [|exact LK]; reflexivity|].
      do 4 (split; [reflexivity|]). constructor; [reflexivity|exact RE]. }
    eapply vfine_weaken; [|eapply (IH (S m) ch w1 l i Hr1 Ul Bc SX1 T1); lia].
    intros a v1 b1 (w' & -> & Hr' & Bv & G' & T'). exists w'. split; [reflexivity|]. split; [exact Hr'|]. split; [exact Bv|]. split; [eapply globals_trans; eassumption|exact T'].
  Qed.

  Definition bad_secret : Prop :=
    exists salt ikm info key, pr_kdf pr (profile_alg (prof cf)) salt ikm info = Some key /\ pr_usable pr (profile_alg (prof cf)) key = false.

  (** The certificate. *)
  Lemma certify_tower h w l i n : reachable cf (w_st w) -> u32 l -> byte_string 16 h -> supports (w_st w) X509 -> tower (w_st w) l h n ->
    exists v w', call (GcCertify h z 0 0) (at_ w l i) = (Some v, [], at_ w' l i) /\ reachable cf (w_st w') /\
      ((exists h' a b cert, v = GoOk (VKey h' a b cert) /\ byte_string 16 h' /\ same_globals (w_st w) (w_st w') /\ tower (w_st w') l h' n) \/
       (exists e, v = GoErr e /\ w_st w' = w_st w /\ prof cf <> Mldsa87 /\ bad_secret) \/
       eight_draws cf pr dig w w').
  Proof.
    intros Hr Ul Uh SX (p & x & L & H & Ln & LK & A1 & A2 & A3 & A4 & RE).
    pose proof (holds_sole _ _ _ _ _ _ H A1 A2 A3 (retired_unnamed _ _ _ RE)) as F. pose proof (holds_head _ _ _ _ H) as [Hp _].
    destruct (call_live cf R pr chain issuer serial ski RF c MF (GcCertify h z 0 0) w l i Hr Ul) as (r & out & w' & v & Hrun & D & E & Hr' & WC & WP).
    { cbn [usable]. repeat split; try assumption; try apply Uh; try apply Uz. }
    exists v, w'. split; [exact E|]. split; [exact Hr'|].
    assert (EC : exists cc, meant k (GcCertify h z 0 0) = CmdCertifyKey cc /\ ck_handle (certify_inner cc) = h /\ ck_format (certify_inner cc) = 0).
    { clear. generalize k. intros []; cbn [meant]; eexists; (split; [reflexivity|split; reflexivity]). }
    destruct EC as (cc & EC & E1 & E2). rewrite EC in *.
    assert (EP : certify_profile cc = prof cf) by (destruct cc; cbn in WP |- *; congruence).
    destruct Hrun as (w1 & X & Eo & Ew). unfold sim_exec in X.
    set (w0 := mkWorld (w_st w) (w_c w) (w_p w) _) in X.
    assert (L0 : length (w_out w0) = response_size cf (CmdCertifyKey cc)) by (rewrite size_wire; apply repeat_length).
    assert (LG : legitimate cf plat (CmdCertifyKey cc) l (w_st w)).
    { cbn [legitimate]. exists h, p, x. split; [destruct cc; cbn in E1 |- *; congruence|]. split; [split; assumption|]. rewrite <- EP.
      destruct cc; cbn [certify_profile certify_inner] in *; left; auto. }
    destruct (C52_available cf R pr dig chain issuer serial ski (CmdCertifyKey cc) l w0 r w1 RF Hr WC WP LG
      ltac:(rewrite L0; apply fixed_response; exact Logic.I) ltac:(rewrite L0; lia) X) as [(m & ->)|(e & -> & RR)].
    - left. destruct D as (resp & AN & EB & ->).
      assert (RS : exists q hd hx pk0 zz cert, resp = RespCertifyKey q hd hx pk0 zz cert) by (destruct AN as [_ AN]; destruct resp; try contradiction AN; do 6 eexists; reflexivity).
      destruct RS as (q & hd & hx & pk0 & zz & cert & ->). destruct AN as (_ & _ & Bx & _).
      pose proof X as X'. cbn [exec_command] in X'. apply exec_certify_inv in X' as [[_ N]|(s' & w2 & cr & nh & (j & ctx & _ & _ & Hroll) & K & Fin)]; [destruct (N m); reflexivity|].
      destruct (pubkey_bytes (certify_profile cc) (cr_pubkey cr)) as [pk|]; [|destruct Fin; discriminate]. cbv zeta in Fin. destruct Fin as [(_ & _ & Ho)|(_ & Q & _)]; [|discriminate].
      destruct Hroll as (j' & x1 & x2 & Fj & Hx1 & RO & Es & En). rewrite E1 in Fj. change (w_st w0) with (w_st w) in *.
      pose proof (first_unique _ _ _ Fj F) as ->. assert (x1 = x) by (unfold at_slot in *; congruence). subst x1.
      assert (RH : exists y, x2 = set_handle y x).
      { destruct RO as [[_ ->]|(_ & y & _ & ->)]; [exists (c_handle x); destruct x; reflexivity|eauto]. }
      assert (Enh : hx = c_handle x2).
      { assert (L16 : length nh = 16%nat).
        { subst nh. destruct RO as [[Q ->]|(_ & y & (_ & Q & _) & ->)]; [rewrite Q; reflexivity|exact Q]. }
        assert (S1 : slice out 12 16 = nh) by (rewrite Eo, Ho; unfold certify_hdr_bytes; apply slice_first; exact L16).
        rewrite <- En, <- S1, <- EB. unfold response_bytes, slice. cbn [response_fields]. rewrite concat_app.
        assert (L1 : length (concat (hdr_fields hd)) = 12%nat) by (unfold hdr_fields; cbn [concat]; rewrite !app_length, !length_le_bytes; reflexivity).
        rewrite skipn_app, L1, skipn_all2 by lia. cbn [Nat.sub skipn app concat]. rewrite firstn_app. destruct Bx as [Lx _]. rewrite Lx. cbn [Nat.sub]. rewrite firstn_O, app_nil_r, firstn_all2 by lia. reflexivity. }
      destruct RH as (y & Ey). assert (EW : w_st w' = put_ctx (w_st w) p x2) by (rewrite Ew; cbn [w_st]; congruence).
      assert (TW : tower (w_st w') l hx n).
      { exists p, x2, L. rewrite EW. subst x2. split; [eapply holds_put; [exact H|unfold live; cbn; congruence]|]. split; [exact Ln|].
        split; [eapply linked_head; [|exact LK]; reflexivity|]. cbn [set_handle c_state c_locality c_handle c_x509] in *. auto. }
      assert (SG : same_globals (w_st w) (w_st w')) by (rewrite EW; repeat split).
      cbn [told]. destruct q; do 4 eexists; (split; [reflexivity|]); split; assumption || split; assumption.
    - right. cbn [understood] in D.
      assert (SW : w_st w' = w_st w).
      { rewrite Ew. cbn [w_st]. cbn [exec_command] in X. apply exec_certify_inv in X as [[Q _]|(s' & w2 & cr & nh & _ & _ & Fin)]; [exact Q|]. exfalso.
        destruct (pubkey_bytes (certify_profile cc) (cr_pubkey cr)) as [pk|]; [cbv zeta in Fin; destruct Fin as [(_ & Q & _)|(_ & Q & _)]; [discriminate|]|destruct Fin as [Q _]];
          injection Q as ->; exact RR. }
      destruct e; try contradiction RR; cbn [ref_reason] in RR.
      + right. destruct RR as [[_ RR]|(_ & Q & _)]; [subst w'; exact RR|]. exfalso. destruct cc; exact (Q E2).
      + exfalso. destruct RR as (_ & ? & ? & Q & _). discriminate Q.
      + left. destruct RR as [(_ & _ & BS)|(_ & [] & _)]. exists (GoStatus (get_error_code (CryptoErr e))). split; [exact D|]. split; [exact SW|]. split; [|exact BS].
        intros PM. destruct BS as (salt & ikm & info & key & K1 & K2). rewrite PM in *. cbn [profile_alg] in *.
        destruct (so_kdf _ _ _ (rf_sound _ _ _ _ _ _ _ RF) salt ikm info) as (k' & E3 & E4). rewrite PM in *. cbn [profile_alg] in *.
        assert (k' = key) by congruence. subst k'. cbn [pr_usable] in K2. rewrite (E4 eq_refl) in K2. discriminate K2.
  Qed.

  (** One context too many. *)
  Lemma derive_tower h f w l i n : reachable cf (w_st w) -> u32 l -> byte_string 16 h -> supports (w_st w) X509 -> tower (w_st w) l h n -> S n = max_handles cf ->
    f = 0 \/ f = InputAllowX509 ->
    exists v w', call (GcDerive h z f 0 0) (at_ w l i) = (Some v, [], at_ w' l i) /\ reachable cf (w_st w') /\ w_st w' = w_st w /\
      (v = GoErr (GoStatus (get_error_code MaxTcis)) \/ eight_draws cf pr dig w w').
  Proof.
    intros Hr Ul Uh SX TW En Ef. pose proof (tower_full cf _ _ _ _ (wfr _ Hr) TW En) as FU.
    destruct TW as (p & x & L & H & Ln & LK & A1 & A2 & A3 & A4 & RE).
    pose proof (holds_sole _ _ _ _ _ _ H A1 A2 A3 (retired_unnamed _ _ _ RE)) as F. pose proof (holds_head _ _ _ _ H) as [Hp _].
    pose proof (linked_leaf p x L LK (ho_nodup _ _ H) (tower_slots _ _ _ _ Hr H p (or_introl eq_refl))) as LF. rewrite Forall_forall in LF.
    assert (UF : u32 f) by (destruct Ef; subst; reflexivity).
    assert (B23 : N.testbit f 23 = false) by (destruct Ef; subst; reflexivity). assert (B24 : N.testbit f 24 = false) by (destruct Ef; subst; reflexivity).
    assert (B28 : N.testbit f 28 = false) by (destruct Ef; subst; reflexivity). assert (B29 : N.testbit f 29 = false) by (destruct Ef; subst; reflexivity).
    assert (B27 : N.testbit f 27 = false) by (destruct Ef; subst; reflexivity).
    assert (NU : ~ unsupported_option (w_st w) f) by (destruct Ef; subst; no_option).
    destruct (derive h z f 0 0 w l i Hr Ul Uh Uz UF eq_refl eq_refl B23) as (v & w' & E & Hr' & [(e & -> & S & X)|(ch & ph & -> & Bc & Bp & M)]).
    - exists (GoErr (GoStatus (get_error_code e))), w'. split; [exact E|]. split; [exact Hr'|]. split; [exact S|].
      destruct X as [(_ & X)|[(X & _)|[(_ & X)|(j & y & F2 & Hy & X)]]]; [contradiction|destruct (X p); apply F|right; exact X|].
      pose proof (first_unique _ _ _ F2 F) as ->. assert (y = x) by (unfold at_slot in *; congruence). subst y.
      destruct X as [(_ & X)|[(X & _)|(_ & [(-> & X)|(_ & X)])]]; [|congruence|left; reflexivity|]; exfalso.
      + destruct X as [(X & Y)|[(X & _)|[(X & _)|(_ & a & y & Y1 & (u & Y2 & Y3 & Y4) & _)]]]; cbn [derive_req dc_flags] in *; try congruence.
        exact (LF (a, u) (ho_all _ _ H _ _ Y2 Y3) Y4).
      + unfold unsafe_child in X. cbn [derive_req dc_flags] in X. rewrite B28, B29 in X. destruct X as (a & [(y & Y1 & Y2 & Y3 & Y4) _] & [Y5|Y5]); [|discriminate].
        assert (Ly : live y) by (unfold live; congruence). destruct (ho_all _ _ H _ _ Y1 Ly) as [Q|Q]; [injection Q as Q _; congruence|].
        rewrite Forall_forall in RE. specialize (RE _ Q). cbn [snd] in RE. congruence.
    - exfalso. rewrite B24 in M. destruct M as (p2 & pc2 & q & dg & _ & _ & [(old & O1 & O2) _] & _). exact (FU q old O1 O2).
  Qed.

  (** All disappears with the leaf. *)
  Lemma destroy_tower h w l i n : reachable cf (w_st w) -> u32 l -> byte_string 16 h -> tower (w_st w) l h n ->
    exists w', ignore device send c (GcDestroy h) (at_ w l i) = (Some tt, [], at_ w' l i) /\ reachable cf (w_st w') /\ same_globals (w_st w) (w_st w') /\ holds (w_st w') [].
  Proof.
    intros Hr Ul Uh (p & x & L & H & Ln & LK & A1 & A2 & A3 & A4 & RE).
    pose proof (holds_sole _ _ _ _ _ _ H A1 A2 A3 (retired_unnamed _ _ _ RE)) as F.
    destruct (destroy_live cf R pr chain issuer serial ski RF c MF h w l i Hr Ul Uh) as (v & w' & E & Hr' & [(e & _ & _ & X & _)|(-> & t & Ft & D)]); [destruct (X p); apply F|].
    pose proof (first_unique _ _ _ Ft F) as ->. exists w'. split; [unfold ignore; rewrite (then_step _ _ _ _ _ E); reflexivity|]. split; [exact Hr'|]. split; [apply D|].
    eapply (destroy_everything cf); [exact (wfr _ Hr)|exact H| |exact D]. apply (tower_doomed _ _ _ _ H LK (tower_slots _ _ _ _ Hr H) RE).
  Qed.

  (** The loop in two parts. *)
  Lemma chain_parts a b d v x : derive_chain device send c (a + b) d v x = vthen device (derive_chain device send c a d) (fun _ => derive_chain device send c b d) v x.
  Proof.
    revert v x. induction a as [|a IH]; intros v x.
    - cbn [Nat.add derive_chain]. unfold vthen, vlift, done. destruct (derive_chain device send c b d v x) as [[[r l] v1] b1]. reflexivity.
    - cbn [Nat.add derive_chain]. unfold vthen at 1 2 3 4 5 6 7. unfold vget, vlift, vset.
      destruct (must_derive device send c (GcDerive v d InputAllowX509 0 0) 359 x) as [[[r|] l] b1]; cbn [app]; [|reflexivity].
      rewrite (IH (fst r) b1). unfold vthen. destruct (derive_chain device send c a d (fst r) b1) as [[[[u|] l2] v2] b2]; [|reflexivity].
      destruct (derive_chain device send c b d v2 b2) as [[[r3 l3] v3] b3]. cbn [app]. rewrite app_assoc. reflexivity.
  Qed.

  Lemma call_unlucky q w w' l i v : call q (at_ w l i) = (Some v, [], at_ w' l i) -> eight_draws cf pr dig w w' -> harm (at_ w l i) (at_ w' l i).
  Proof. intros E H. do 6 eexists. split; [reflexivity|]. split; [reflexivity|]. split; [exact E|left; exact H]. Qed.

  (** A chain of [m + 1] contexts, and [n] more than fit. *)
  Lemma chain_stops n m h w l i : reachable cf (w_st w) -> u32 l -> byte_string 16 h -> supports (w_st w) X509 -> tower (w_st w) l h m -> (m < max_handles cf <= m + n)%nat ->
    vends (derive_chain device send c n z) h (at_ w l i)
      (fun r cs h' b => r = None /\ cs = [Stopped 359] /\ exists w', b = at_ w' l i /\ reachable cf (w_st w') /\ byte_string 16 h' /\ same_globals (w_st w) (w_st w') /\
         tower (w_st w') l h' (max_handles cf - 1)).
  Proof.
    intros Hr Ul Uh SX TW Lt. set (a := (max_handles cf - 1 - m)%nat). assert (En : n = (a + S (n - a - 1))%nat) by lia.
    unfold SuiteMaxProofs.vends. rewrite En, chain_parts. generalize (n - a - 1)%nat. intros b.
    apply (vends_then device send c harm); [apply v_chain|intros; apply v_chain|].
    eapply vends_fine; [|apply (chain_fine a m h w l i Hr Ul Uh SX TW); lia].
    cbv beta. intros _ h1 b1 (w1 & -> & Hr1 & Bh1 & G1 & T1) _. split; [reflexivity|]. replace (m + a)%nat with (max_handles cf - 1)%nat in T1 by lia.
    assert (SX1 : supports (w_st w1) X509) by (unfold supports in *; destruct G1 as (_ & _ & -> & _); exact SX).
    destruct (derive_tower h1 InputAllowX509 w1 l i _ Hr1 Ul Bh1 SX1 T1 ltac:(lia) (or_intror eq_refl)) as (v & w2 & E & Hr2 & S2 & V).
    cbn [derive_chain].
    apply (vends_then device send c harm); [follow|intros; follow|]. eapply (vends_is device send c harm); [reflexivity|]. intros _. split; [reflexivity|].
    apply (vends_then device send c harm); [follow|intros; follow|]. apply (vends_lift device send c harm).
    eapply (ends_call device send c harm); [exact E|intros; follow|]. destruct V as [->|V]; [right|left; eapply call_unlucky; eassumption].
    eapply (ends_is device send c harm); [reflexivity|]. intros _. split; [reflexivity|]. split; [reflexivity|]. exists w2. rewrite S2. auto 8.
  Qed.

  (** The octets of a certificate that a CertifyKey issued while all contexts were in use. *)
  Definition issued_full (b b' : bench device) (cert : bytes) : Prop :=
    exists w1 w2 l i h x u v, later device send c b (at_ w1 l i) /\ Reasons.full (w_st w1) /\
      call (GcCertify h z 0 0) (at_ w1 l i) = (Some (GoOk (VKey x u v cert)), [], at_ w2 l i) /\ later device send c (at_ w2 l i) b'.

  Lemma lone_tower s l p x : lone s l p x -> c_x509 x = true -> tower s l (repeat 0 16) 0.
  Proof. intros (H & A1 & A2 & A3 & A4) Ax. exists p, x, []. split; [exact H|]. split; [reflexivity|]. split; [constructor; exact A4|]. auto 6. Qed.

  Lemma max_ends w l i p x : reachable cf (w_st w) -> u32 l -> lone (w_st w) l p x -> c_x509 x = true -> supports (w_st w) X509 -> max_handles cf = 64%nat ->
    ends (test_max_tcis device send sup c parses) (at_ w l i)
      (fun r cs b' => (exists w', b' = at_ w' l i /\ reachable cf (w_st w') /\ same_globals (w_st w) (w_st w') /\ holds (w_st w') []) /\
         ((exists cert, issued_full (at_ w l i) b' cert /\ if parses cert then r = Some tt /\ cs = [] else r = None /\ cs = [Stopped 378]) \/
          (r = None /\ cs = [Stopped 370] /\ prof cf <> Mldsa87 /\ bad_secret))).
  Proof.
    intros Hr Ul Lo Ax SX M. pose proof (lone_tower _ _ _ _ Lo Ax) as T0. unfold test_max_tcis.
    apply (ends_start device send c harm). apply (ends_local device send c harm).
    apply (vends_finally device send c harm); [follow|intros; follow|].
    apply (vends_then device send c harm); [follow|intros; follow|].
    eapply vends_fine; [|apply (profile_fine cf R pr chain issuer serial ski RF c) with (Q := fun p0 v b => p0 = own_profile cf /\ v = repeat 0 16 /\ b = at_ w l i); [exact Hr|exact Ul|auto]].
    cbv beta. intros ? ? ? (-> & -> & ->) _. split; [reflexivity|].
    apply (vends_then device send c harm); [apply v_chain|intros; follow|].
    eapply vends_fine; [|apply (chain_fine (SimMaxTCINodes - 1) 0 _ w l i Hr Ul z16 SX T0); unfold SimMaxTCINodes; lia].
    cbv beta. intros _ h1 b1 (w1 & -> & Hr1 & Bh1 & G1 & T1) L1. split; [reflexivity|]. change (0 + (SimMaxTCINodes - 1))%nat with 63%nat in T1.
    assert (SX1 : supports (w_st w1) X509) by (unfold supports in *; destruct G1 as (_ & _ & -> & _); exact SX).
    apply (vends_then device send c harm); [follow|intros; follow|]. eapply (vends_is device send c harm); [reflexivity|]. intros _. split; [reflexivity|].
    destruct (certify_tower h1 w1 l i _ Hr1 Ul Bh1 SX1 T1) as (v & w2 & E & Hr2 & V).
    pose proof (tower_full cf _ _ _ _ (wfr _ Hr1) T1 ltac:(lia)) as FU.
    assert (GONE : forall h2 wz n, reachable cf (w_st wz) -> byte_string 16 h2 -> same_globals (w_st w) (w_st wz) -> tower (w_st wz) l h2 n ->
      exists w', ignore device send c (GcDestroy h2) (at_ wz l i) = (Some tt, [], at_ w' l i) /\ reachable cf (w_st w') /\ same_globals (w_st w) (w_st w') /\ holds (w_st w') []).
    { intros h2 wz n Rz Bz Gz Tz. destruct (destroy_tower h2 wz l i n Rz Ul Bz Tz) as (w' & E' & R' & G' & H'). exists w'. split; [exact E'|].
      split; [exact R'|]. split; [eapply globals_trans; eassumption|exact H']. }
    eapply (vends_call device send c harm); [exact E|intros; follow|].
    destruct V as [(h2 & u1 & u2 & cert & -> & Bh2 & G2 & T2)|[(e & -> & S2 & NM & BS)|V]]; [right|right|left; eapply call_unlucky; eassumption]; intros L2.
    - assert (G02 : same_globals (w_st w) (w_st w2)) by (eapply globals_trans; eassumption).
      assert (SX2 : supports (w_st w2) X509) by (unfold supports in *; destruct G2 as (_ & _ & -> & _); exact SX1).
      apply (vends_then device send c harm); [follow|intros; follow|]. eapply (vends_is device send c harm); [reflexivity|]. intros _. split; [reflexivity|].
      apply (vends_then device send c harm); [follow|intros; follow|]. apply (vends_lift device send c harm).
      destruct (parses cert) eqn:PC; (eapply (ends_is device send c harm); [reflexivity|]); intros _.
      + split; [reflexivity|]. apply (vends_lift device send c harm). unfold must_fail_fatal.
        destruct (derive_tower h2 0 w2 l i _ Hr2 Ul Bh2 SX2 T2 ltac:(lia) (or_introl eq_refl)) as (v3 & w3 & E3 & Hr3 & S3 & V3).
        eapply (ends_call device send c harm); [exact E3|intros; follow|]. destruct V3 as [->|V3]; [right|left; eapply call_unlucky; eassumption].
        eapply (ends_is device send c harm); [reflexivity|].
        destruct (GONE h2 w3 63%nat Hr3 Bh2 ltac:(rewrite S3; exact G02) ltac:(rewrite S3; exact T2)) as (w4 & E4 & Hr4 & G4 & H4).
        eapply (ends_is device send c harm); [exact E4|]. intros L4. split; [exists w4; auto|]. left. exists cert. rewrite PC. split; [|split; reflexivity].
        exists w1, w2, l, i, h1, h2, u1, u2. split; [exact L1|]. split; [exact FU|]. split; [exact E|].
        eapply later_trans; [eapply later_call; [exact E3|apply later_same]|exact L4].
      + destruct (GONE h2 w2 63%nat Hr2 Bh2 G02 T2) as (w4 & E4 & Hr4 & G4 & H4).
        eapply (ends_is device send c harm); [exact E4|]. intros L4. split; [exists w4; auto|]. left. exists cert. rewrite PC. split; [|split; reflexivity].
        exists w1, w2, l, i, h1, h2, u1, u2. split; [exact L1|]. split; [exact FU|]. split; [exact E|exact L4].
    - apply (vends_lift device send c harm). eapply (ends_is device send c harm); [reflexivity|].
      destruct (GONE h1 w2 63%nat Hr2 Bh1 ltac:(rewrite S2; exact G1) ltac:(rewrite S2; exact T1)) as (w4 & E4 & Hr4 & G4 & H4).
      eapply (ends_is device send c harm); [exact E4|]. intros L4. split; [exists w4; auto|]. right. auto.
  Qed.

  (** With fewer contexts than the test expects it stops when they are used up. *)
  Lemma few_ends w l i p x : reachable cf (w_st w) -> u32 l -> lone (w_st w) l p x -> c_x509 x = true -> supports (w_st w) X509 -> (max_handles cf < 64)%nat ->
    ends (test_max_tcis device send sup c parses) (at_ w l i)
      (fun r cs b' => r = None /\ cs = [Stopped 359] /\ exists w', b' = at_ w' l i /\ reachable cf (w_st w') /\ same_globals (w_st w) (w_st w') /\ holds (w_st w') []).
  Proof.
    intros Hr Ul Lo Ax SX M. pose proof (lone_tower _ _ _ _ Lo Ax) as T0. unfold test_max_tcis.
    assert (M1 : (0 < max_handles cf)%nat).
    { destruct Lo as (H & _). pose proof (holds_head _ _ _ _ H) as [Q _]. apply at_lt in Q. rewrite (fo_size _ _ (wf_forest _ _ (wfr _ Hr))) in Q. lia. }
    apply (ends_start device send c harm). apply (ends_local device send c harm).
    apply (vends_finally device send c harm); [follow|intros; follow|].
    apply (vends_then device send c harm); [follow|intros; follow|].
    eapply vends_fine; [|apply (profile_fine cf R pr chain issuer serial ski RF c) with (Q := fun p0 v b => p0 = own_profile cf /\ v = repeat 0 16 /\ b = at_ w l i); [exact Hr|exact Ul|auto]].
    cbv beta. intros ? ? ? (-> & -> & ->) _. split; [reflexivity|].
    apply (vends_then device send c harm); [apply v_chain|intros; follow|].
    eapply vends_weaken; [|apply (chain_stops (SimMaxTCINodes - 1) 0 _ w l i Hr Ul z16 SX T0); unfold SimMaxTCINodes; lia].
    cbv beta. intros r cs h1 b1 (-> & -> & w1 & -> & Hr1 & Bh1 & G1 & T1) _.
    destruct (destroy_tower h1 w1 l i _ Hr1 Ul Bh1 T1) as (w4 & E4 & Hr4 & G4 & H4).
    eapply (ends_is device send c harm); [exact E4|]. intros _. split; [reflexivity|]. split; [reflexivity|]. exists w4. split; [reflexivity|]. split; [exact Hr4|]. split; [eapply globals_trans; eassumption|exact H4].
  Qed.
End Max.

Section MaxTarget.
  Variable cf : config.
  Variable R : Type.
  Variable pr : primitives R.
  Variables chain issuer serial ski : bytes.
  Hypothesis RF : reference cf pr (backend_digest (prof cf)) chain issuer serial ski.
  Notation send := (sim_send cf R pr chain issuer serial ski).
  Notation device := (option (world (rust_c R) unit)).

  Lemma on_max_target parses sup k seed : suits cf k -> gs_auto_init sup = true ->
    exists w c x, sim_start cf R pr chain issuer serial ski (power_on_args sup) seed = (Ok tt, w) /\ made_for cf c /\
      run_max_target device send parses sup (Some w) = Some (run_max device send sup c parses (at_ w SimAutoInitLocality false)) /\
      reachable cf (w_st w) /\ (forall i, supports (w_st w) i <-> asked (power_on_args sup) i = true) /\
      lone (w_st w) SimAutoInitLocality 0 x /\ c_x509 x = true.
  Proof.
    intros Su A. pose proof (rf_config _ _ _ _ _ _ _ RF) as Hcf.
    destruct (on_target cf R pr chain issuer serial ski RF sup k seed [] Su) as (w & _ & E & _ & _ & Hr & Hs & S & X).
    assert (Hk : kind_for (own_profile cf) = Some k) by (rewrite <- (su_profile _ _ Su); destruct k; reflexivity).
    pose proof (su_profile _ _ Su) as Hp.
    assert (HC : chain_fits chain) by (apply RF). assert (HF := rf_fuel _ _ _ _ _ _ _ RF). assert (HI := Hissuer cf R pr chain issuer serial ski RF).
    rewrite A in X. destruct X as (fl & X). apply lone_auto in X as (y & L & _ & _ & Y).
    exists w. eexists. exists y. split; [exact E|]. split.
    2:{ split; [|auto].
        unfold run_max_target. rewrite (profile_told cf Hcf R pr chain issuer serial ski HC HF HI) by (assumption || reflexivity). rewrite Hk.
        rewrite (new_told cf Hcf R pr chain issuer serial ski HC HF HI) by (assumption || reflexivity). rewrite (proj2 (N.eqb_eq _ _) Hp). reflexivity. }
    split; [exact Su|]. split; reflexivity.
  Qed.
End MaxTarget.
