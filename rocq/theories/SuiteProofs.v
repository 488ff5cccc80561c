(** SuiteProofs.v -- the tests of the verification suite: proofs. *)
From Verif Require Import Base Errors Types StateOps Env Wire Instance Commands RespBuf Response X509 X509Cert RustCrypto DefaultPlatform Simulator GoClient Suite ClientSpec
  Lib Spec Exec Effects Forest History WireSpec Contract Codec Steps Reach CommandSpecs Responses Execute Walk Measure Reasons Explain Avail X509Spec X509Cmd X509Facts
  X509Fit X509Fail X509Sane PlatformProofs RustProofs Trace TraceCmds TraceRust RefFaults Props_Commands Props_Avail Props_Reference Props_Size Props_Fail Props_Calls
  Props_Handles Props_Tree Props_Harness SimulatorProofs Props_Simulator ClientProofs ClientChain Props_Client.
Local Open Scope N_scope.

Section Bench.
  Context {T : Type}.
  Lemma then_some {A B} (m : test T A) (f : A -> test T B) b a l b1 :
    m b = (Some a, l, b1) -> andthen T m f b = (let '(r, l2, b2) := f a b1 in (r, l ++ l2, b2)).
  Proof. intros E. unfold andthen. rewrite E. reflexivity. Qed.
  Lemma then_none {A B} (m : test T A) (f : A -> test T B) b l b1 :
    m b = (None, l, b1) -> andthen T m f b = (None, l, b1).
  Proof. intros E. unfold andthen. rewrite E. reflexivity. Qed.
  Lemma then_step {A B} (m : test T A) (f : A -> test T B) b a b1 :
    m b = (Some a, [], b1) -> andthen T m f b = f a b1.
  Proof. intros E. rewrite (then_some _ _ _ _ _ _ E). destruct (f a b1) as [[r l2] b2]. reflexivity. Qed.
End Bench.

Lemma same_handle_eq a b : same_handle a b = true <-> a = b.
Proof. unfold same_handle. destruct (list_eq_dec N.eq_dec a b); split; congruence. Qed.
Lemma same_handle_neq a b : same_handle a b = false <-> a <> b.
Proof. unfold same_handle. destruct (list_eq_dec N.eq_dec a b); split; congruence. Qed.

(** Every live context is as it was, and no other came. *)
Definition undisturbed (s s' : state) : Prop :=
  same_globals s s' /\ length (st_contexts s') = length (st_contexts s) /\
  forall i c, at_slot s i c -> exists c', at_slot s' i c' /\ (live c -> c' = c) /\ (~ live c -> ~ live c').
Lemma undisturbed_refl s : undisturbed s s.
Proof. split; [repeat split|]. split; [reflexivity|]. intros i c H. exists c. auto. Qed.
Lemma undisturbed_trans a b c : undisturbed a b -> undisturbed b c -> undisturbed a c.
Proof.
  intros [G1 [L1 H1]] [G2 [L2 H2]]. split; [unfold same_globals in *; repeat split; intuition congruence|]. split; [congruence|].
  intros i x Hx. destruct (H1 i x Hx) as (y & Hy & A & B). destruct (H2 i y Hy) as (z & Hz & D & E). exists z. split; [exact Hz|]. split.
  - intros L. specialize (A L). subst y. apply D. exact L.
  - intros L. apply E, B, L.
Qed.

Section Live.
  Variable cf : config.
  Variable R : Type.
  Variable pr : primitives R.
  Variables chain issuer serial ski : bytes.
  Notation dig := (backend_digest (prof cf)).
  Hypothesis RF : reference cf pr dig chain issuer serial ski.
  Notation ops := (sim_ops cf R pr).
  Notation plat := (sim_platform chain issuer serial ski).
  Notation send := (sim_send cf R pr chain issuer serial ski).
  Notation runs := (runs_to cf R pr chain issuer serial ski).
  Notation device := (option (world (rust_c R) unit)).
  Variable sup : go_support.
  Variable c : go_client.
  Hypothesis MF : made_for cf c.
  Notation call := (call device send c).
  Notation k := (cl_kind c).
  Definition at_ (w : world (rust_c R) unit) (l : N) (i : bool) : bench device :=
    {| bn_device := Some w; bn_locality := l; bn_initialized := i |}.

  Let Hcf : config_ok cf := rf_config _ _ _ _ _ _ _ RF.
  Let Hchain : chain_fits chain := proj1 (rf_artifacts _ _ _ _ _ _ _ RF).
  Let Hfuel : (length chain < 2048 * (fuel cf - 1))%nat := rf_fuel _ _ _ _ _ _ _ RF.
  Lemma Hissuer : (length issuer <= 128)%nat.
  Proof. pose proof (rf_artifacts _ _ _ _ _ _ _ RF) as (_ & H & _). lia. Qed.

  Definition en : env := {| e_C := rust_c R; e_P := unit; e_crypto := ops; e_platform := plat; e_cert := x509_gen cf (rust_c R) unit ops plat |}.

  (** A call: what ran, what came back. *)
  Lemma call_live q w l i : reachable cf (w_st w) -> u32 l -> usable k q ->
    exists r out w' v, runs (meant k q) l w r out w' /\ understood cf (meant k q) r out v /\ call q (at_ w l i) = (Some v, [], at_ w' l i) /\
      reachable cf (w_st w') /\ command_wf cf (meant k q) /\ WireSpec.for_profile cf (meant k q).
  Proof.
    intros Hr Ul U. destruct (C53_call cf R pr chain issuer serial ski c q l w Hcf Hchain Hfuel Hissuer Hr Ul MF U) as (r & out & w' & v & X & D & E).
    destruct (meant_wf cf chain issuer Hfuel Hissuer c q MF U) as [WC WP].
    exists r, out, w', v. split; [exact X|]. split; [exact D|]. split; [unfold Suite.call, at_; cbn [bn_device bn_locality]; rewrite E; reflexivity|].
    split; [|auto]. eapply runs_reachable; eassumption.
  Qed.

  (** Why a call failed, and what it did. *)
  Lemma runs_err cmd l w e out w' : reachable cf (w_st w) -> command_wf cf cmd -> WireSpec.for_profile cf cmd ->
    runs cmd l w (Err e) out w' ->
    (refusal cf ops plat (obliging cf) cmd l (w_st w) (w_st w') (N.to_nat (wire_size cf cmd)) e \/
     writer_refusal cf ops plat (N.of_nat (length issuer)) 0 cmd l (w_st w) (N.to_nat (wire_size cf cmd)) e) /\
    (environmental e -> ref_reason cf pr dig chain cmd l w w' e).
  Proof.
    intros Hr HW FP (w1 & X & -> & ->). unfold sim_exec in X. split.
    - pose proof (C42_reference cf R pr dig chain issuer serial ski cmd l (mkWorld (w_st w) (w_c w) (w_p w) _) e w1 Hcf Hissuer Hr HW X) as H. cbn [w_out w_st] in *.
      rewrite repeat_length in H. exact H.
    - intros EN. pose proof (C52_errors cf R pr dig chain issuer serial ski cmd l (mkWorld (w_st w) (w_c w) (w_p w) (repeat 0 (N.to_nat (wire_size cf cmd)))) e w1 RF Hr HW FP) as H.
      cbn [w_out] in H. rewrite repeat_length in H. specialize (H ltac:(rewrite <- size_wire; lia) X EN). exact H.
  Qed.

  Lemma eta (w : world (rust_c R) unit) : mkWorld (w_st w) (w_c w) (w_p w) (w_out w) = w.
  Proof. destruct w. reflexivity. Qed.

  (** A handle that is not the caller's. *)
  Lemma refused_live q h w l i : reachable cf (w_st w) -> u32 l -> usable k q ->
    presents (meant k q) h -> (forall j, ~ names (w_st w) h l j) ->
    exists er, call q (at_ w l i) = (Some (GoErr (GoStatus (get_error_code er))), [], at_ w l i) /\
      (denied (w_st w) l er \/ early (w_st w) (meant k q) er \/
       (er = InvalidParentLocality /\ exists u, meant k q = CmdUpdateContextMeasurement u)).
  Proof.
    intros Hr Ul U P NN. destruct (call_live q w l i Hr Ul U) as (r & out & w' & v & (w1 & X & -> & ->) & D & E & _).
    destruct (C01_unowned_handle_refused cf en (meant k q) h l _ _ _ X P NN) as (-> & er & -> & Y).
    cbn [understood] in D. subst v. cbn [w_st w_c w_p] in E. rewrite eta in E. exists er. auto.
  Qed.

  (** InitializeContext. *)
  Definition given (h : bytes) : go_result go_value := GoOk (VHandle h).
  Lemma handle_out hd x h : length h = 16%nat -> concat (hdr_fields hd ++ [x]) = overwrite (repeat 0 (N.to_nat 28)) 0 (new_handle_resp_bytes cf h) -> x = h.
  Proof.
    intros L E. unfold overwrite, new_handle_resp_bytes in E. cbn [firstn app Nat.add] in E.
    assert (L2 : length (ok_hdr_bytes cf) = 12%nat) by (unfold ok_hdr_bytes, response_hdr_bytes; rewrite !app_length, !length_le_bytes; reflexivity).
    rewrite skipn_all2 in E by (rewrite repeat_length, app_length, L, L2; cbn; lia). rewrite app_nil_r in E.
    rewrite concat_app in E. cbn [concat] in E. rewrite app_nil_r in E.
    assert (L1 : length (concat (hdr_fields hd)) = 12%nat) by (unfold hdr_fields; cbn [concat]; rewrite !app_length, !length_le_bytes; reflexivity).
    apply (f_equal (skipn 12)) in E. rewrite !skipn_app, L1, L2, !skipn_all2 in E by lia. exact E.
  Qed.

  Lemma init_live f w l i : reachable cf (w_st w) -> u32 l -> u32 f ->
    exists v w', call (GcInit f) (at_ w l i) = (Some v, [], at_ w' l i) /\ reachable cf (w_st w') /\
      ((exists e, v = GoErr (GoStatus (get_error_code e)) /\ w_st w' = w_st w /\
          ((e = ArgumentNotSupported /\ ((N.testbit f 30 = true /\ st_init (w_st w) = true) \/ (N.testbit f 31 = true /\ ~ supports (w_st w) SIMULATION))) \/
           (e = InvalidArgument /\ N.testbit f 30 = N.testbit f 31) \/
           (e = MaxTcis /\ Reasons.full (w_st w)) \/
           (N.testbit f 31 = true /\ e = InternalError HandleGenerationExhausted /\ eight_draws cf pr dig w w'))) \/
       (exists h, v = given h /\ length h = 16%nat /\ all_bytes h /\ init_done cf f l (w_st w) (w_st w') (new_handle_resp_bytes cf h))).
  Proof.
    intros Hr Ul Uf. destruct (call_live (GcInit f) w l i Hr Ul Uf) as (r & out & w' & v & Hrun & D & E & Hr' & WC & WP).
    exists v, w'. split; [exact E|]. split; [exact Hr'|]. cbn [meant] in *.
    pose proof Hrun as (w1 & X & Eo & Ew). unfold sim_exec in X. cbn [exec_command] in X.
    destruct r as [n|e|kk]; [| |destruct D].
    - right. apply exec_init_inv in X as [[_ N]|(s' & bs & ID & Fin)]; [destruct (N n); reflexivity|].
      destruct D as (resp & A & B & ->). pose proof ID as (idx & h & F & -> & C).
      destruct Fin as [Es [(L & Er & Ob)|(_ & Q & _)]]; [|discriminate].
      assert (LH : length h = 16%nat /\ all_bytes h).
      { destruct C as [(_ & _ & _ & -> & _)|(_ & _ & _ & (_ & L1 & A1 & _) & _)]; [|auto]. split; [reflexivity|]. apply Forall_forall. intros x Hx. apply repeat_spec in Hx. subst; reflexivity. }
      exists h. destruct resp; try (destruct A as [_ A]; contradiction A).
      split; [|split; [apply LH|split; [apply LH|]]].
      + cbn [told]. unfold given. do 2 f_equal. eapply handle_out; [apply LH|]. rewrite Eo in B. cbn [w_out] in Ob. cbn [wire_size] in Ob. rewrite Ob in B. exact B.
      + rewrite Ew. cbn [w_st]. rewrite Es. exact ID.
    - left. exists e. split; [exact D|].
      assert (S1 : w_st w' = w_st w).
      { rewrite Ew. cbn [w_st]. apply exec_init_inv in X as [[[K _] _]|(s' & bs & ID & Fin)]; [exact K|].
        destruct ID as (idx & h & F & -> & C). destruct Fin as [_ [(_ & Q & _)|(Q & _ & _)]]; [discriminate|]. exfalso.
        cbn [w_out wire_size] in Q. rewrite repeat_length in Q. unfold new_handle_resp_bytes in Q. rewrite app_length in Q.
        assert (L2 : length (ok_hdr_bytes cf) = 12%nat) by (unfold ok_hdr_bytes, response_hdr_bytes; rewrite !app_length, !length_le_bytes; reflexivity).
        assert (L3 : length h = 16%nat) by (destruct C as [(_ & _ & _ & -> & _)|(_ & _ & _ & (_ & L1 & _) & _)]; [reflexivity|exact L1]). rewrite L2, L3 in Q. cbn in Q. lia. }
      split; [exact S1|].
      destruct (runs_err _ _ _ _ _ _ Hr WC WP Hrun) as [[[[_ Q]|H]|H] EN].
      + exfalso. cbn in Q. lia.
      + cbn [refusal] in H. destruct H as [H|[H|[H|[H1 H2]]]]; [auto|auto|auto|]. right; right; right. split; [exact H1|].
        destruct H2 as [(ce & -> & H2)|(-> & H2)]; [destruct (ref_rand _ _ _ _ H2)|]. split; [reflexivity|].
        specialize (EN Logic.I). cbn [ref_reason] in EN. destruct EN as [[_ EN]|[Q _]]; [exact EN|discriminate].
      + destruct H.
  Qed.

  (** RotateContextHandle. *)
  Lemma rotate_live h f w l i : reachable cf (w_st w) -> u32 l -> byte_string 16 h -> u32 f ->
    exists v w', call (GcRotate h f) (at_ w l i) = (Some v, [], at_ w' l i) /\ reachable cf (w_st w') /\
      ((exists e, v = GoErr (GoStatus (get_error_code e)) /\ w_st w' = w_st w /\
          ((e = InvalidCommand /\ ~ supports (w_st w) ROTATE_CONTEXT) \/
           not_yours (w_st w) h l e \/
           (e = InvalidArgument /\ N.testbit f 31 = true /\
              exists t j x, first_slot (names (w_st w) h l) t /\ at_slot (w_st w) j x /\ c_state x = Active /\
                c_locality x = l /\ (c_handle x = repeat 0%N 16 \/ j <> t)) \/
           (N.testbit f 31 = false /\ e = InternalError HandleGenerationExhausted /\ eight_draws cf pr dig w w'))) \/
       (exists nh, v = given nh /\ length nh = 16%nat /\ all_bytes nh /\ rotate_done cf h f l (w_st w) (w_st w') (new_handle_resp_bytes cf nh))).
  Proof.
    intros Hr Ul Uh Uf. destruct (call_live (GcRotate h f) w l i Hr Ul (conj Uh Uf)) as (r & out & w' & v & Hrun & D & E & Hr' & WC & WP).
    exists v, w'. split; [exact E|]. split; [exact Hr'|]. cbn [meant] in *.
    pose proof Hrun as (w1 & X & Eo & Ew). unfold sim_exec in X. cbn [exec_command] in X.
    assert (LN : forall s s' bs, rotate_done cf h f l s s' bs -> exists nh, bs = new_handle_resp_bytes cf nh /\ length nh = 16%nat /\ all_bytes nh).
    { intros s s' bs (idx & x & nh & _ & _ & _ & _ & -> & C). exists nh. split; [reflexivity|].
      destruct C as [(_ & -> & _)|(_ & (_ & L1 & A1 & _))]; [|auto]. split; [reflexivity|]. apply Forall_forall. intros y Hy. apply repeat_spec in Hy. subst; reflexivity. }
    destruct r as [n|e|kk]; [| |destruct D].
    - right. apply exec_rotate_inv in X as [[_ N]|(s' & bs & ID & Fin)]; [destruct (N n); reflexivity|].
      destruct D as (resp & A & B & ->). destruct (LN _ _ _ ID) as (nh & -> & LH).
      destruct Fin as [Es [(L & Er & Ob)|(_ & Q & _)]]; [|discriminate].
      exists nh. destruct resp; try (destruct A as [_ A]; contradiction A).
      split; [|split; [apply LH|split; [apply LH|]]].
      + cbn [told]. unfold given. do 2 f_equal. eapply handle_out; [apply LH|]. rewrite Eo in B. cbn [w_out] in Ob. cbn [wire_size] in Ob. rewrite Ob in B. exact B.
      + rewrite Ew. cbn [w_st]. rewrite Es. exact ID.
    - left. exists e. split; [exact D|].
      assert (S1 : w_st w' = w_st w).
      { rewrite Ew. cbn [w_st]. apply exec_rotate_inv in X as [[[K _] _]|(s' & bs & ID & Fin)]; [exact K|].
        destruct (LN _ _ _ ID) as (nh & -> & L3 & _). destruct Fin as [_ [(_ & Q & _)|(Q & _ & _)]]; [discriminate|]. exfalso.
        cbn [w_out wire_size] in Q. rewrite repeat_length in Q. unfold new_handle_resp_bytes in Q. rewrite app_length in Q.
        assert (L2 : length (ok_hdr_bytes cf) = 12%nat) by (unfold ok_hdr_bytes, response_hdr_bytes; rewrite !app_length, !length_le_bytes; reflexivity).
        rewrite L2, L3 in Q. cbn in Q. lia. }
      split; [exact S1|].
      destruct (runs_err _ _ _ _ _ _ Hr WC WP Hrun) as [[[[_ Q]|H]|H] EN].
      + exfalso. cbn in Q. lia.
      + cbn [refusal] in H. destruct H as [H|[H|[H|[H1 H2]]]]; [auto|auto|auto|]. right; right; right. split; [exact H1|].
        destruct H2 as [(ce & -> & H2)|(-> & H2)]; [destruct (ref_rand _ _ _ _ H2)|]. split; [reflexivity|].
        specialize (EN Logic.I). cbn [ref_reason] in EN. destruct EN as [[_ EN]|[Q _]]; [exact EN|discriminate].
      + destruct H.
  Qed.

  (** DestroyContext. *)
  Lemma destroy_live h w l i : reachable cf (w_st w) -> u32 l -> byte_string 16 h ->
    exists v w', call (GcDestroy h) (at_ w l i) = (Some v, [], at_ w' l i) /\ reachable cf (w_st w') /\
      ((exists e, v = GoErr (GoStatus (get_error_code e)) /\ w' = w /\ not_yours (w_st w) h l e) \/
       (v = GoOk VNone /\ exists t, first_slot (names (w_st w) h l) t /\
          same_globals (w_st w) (w_st w') /\ length (st_contexts (w_st w')) = length (st_contexts (w_st w)) /\
          forall j x, at_slot (w_st w) j x -> exists x', at_slot (w_st w') j x' /\
            (doomed (w_st w) t j -> blank cf x' /\ c_handle x' = repeat 255%N 16) /\
            (~ doomed (w_st w) t j -> same_but_children x x' /\
               forall y, has_bit (c_children x') y <-> has_bit (c_children x) y /\ ~ doomed (w_st w) t y))).
  Proof.
    intros Hr Ul Uh. destruct (call_live (GcDestroy h) w l i Hr Ul Uh) as (r & out & w' & v & Hrun & D & E & Hr' & WC & WP).
    exists v, w'. split; [exact E|]. split; [exact Hr'|]. cbn [meant] in *.
    pose proof (reachable_wf cf Hcf _ Hr) as W.
    pose proof Hrun as (w1 & X & Eo & Ew). unfold sim_exec in X.
    destruct r as [n|e|kk]; [| |destruct D].
    - right. destruct D as (resp & A & B & ->). split; [destruct resp; try (destruct A as [_ A]; contradiction A); reflexivity|].
      assert (EX : executes cf en (CmdDestroyCtx h) l (w_st w) (Ok n) (w_st w')).
      { subst w'. destruct w1 as [s1 c1 p1 o1]. do 6 eexists. exact X. }
      exact (C11_destroy_exact cf en h l (w_st w) n (w_st w') Hcf W EX).
    - left. exists e. split; [exact D|].
      assert (NY : not_yours (w_st w) h l e).
      { destruct (runs_err _ _ _ _ _ _ Hr WC WP Hrun) as [[[[_ Q]|H]|H] _]; [exfalso; cbn in Q; lia|exact H|destruct H]. }
      split; [|exact NY]. subst w'. destruct NY as [NN _].
      destruct (C01_unowned_handle_refused cf en (CmdDestroyCtx h) h l _ _ _ X eq_refl NN) as (-> & _). cbn [w_st w_c w_p]. apply eta.
  Qed.
End Live.
