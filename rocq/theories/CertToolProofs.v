(** CertToolProofs.v -- what the certificate size tool does with an instance. *)
From Verif Require Import Base Errors Types StateOps Env Wire Instance Commands RespBuf Response X509 X509Cert RustCrypto DefaultPlatform Simulator CertTool
  Lib Spec Exec Effects Forest History WireSpec Contract Codec Steps Reach CommandSpecs Responses Execute Walk Measure Reasons Explain Avail Ledger SimulatorProofs Der DerProofs X509Run X509Spec
  X509Bytes X509Enc X509Tbs X509Cms X509Out X509Proper X509Gen X509Read X509ReadOk X509Made X509Cmd X509Odd X509Facts X509Size X509Width
  X509Fit X509Fail X509Sane PlatformProofs RustProofs Trace TraceCmds TraceRust RefFaults ExactSize RefSize
  Props_Commands Props_Avail Props_Reference Props_Size Props_Fail Props_Calls Props_Harness.
Open Scope N_scope.

Lemma path_live s i l : path s i l -> forall j, In j l -> exists c, at_slot s j c /\ live c.
Proof. induction 1 as [i c A B D|i c l A B D _ IH]; intros j [<-|X]; eauto; destruct X. Qed.
Lemma path_moved s s' i l : (forall j c, at_slot s j c -> live c -> exists c', at_slot s' j c' /\ live c' /\ c_parent c' = c_parent c) ->
  path s i l -> path s' i l.
Proof.
  intros T. induction 1 as [i c A B D|i c l A B D _ IH]; destruct (T i c A B) as (c' & A' & B' & D').
  - apply (path_root _ _ c'); congruence.
  - apply (path_step _ _ c'); [assumption|assumption|congruence|]. rewrite D'. exact IH.
Qed.
Lemma path_chain s i l : path s i l -> exists cts, Forall2 (at_slot s) l cts.
Proof.
  induction 1 as [i c A B D|i c l A B D _ [cts IH]]; [exists [c]|exists (c :: cts)]; repeat constructor; assumption.
Qed.
(** Fewer contexts than slots leave a free one. *)
Lemma some_free s (l : list nat) : (length l < length (st_contexts s))%nat -> (forall j c, at_slot s j c -> live c -> In j l) ->
  exists j c, at_slot s j c /\ c_state c = Inactive.
Proof.
  intros L H. assert (D : {exists j, (j < length (st_contexts s))%nat /\ ~ In j l} + {forall j, (j < length (st_contexts s))%nat -> In j l}).
  { generalize (length (st_contexts s)). induction n as [|n IH]; [right; lia|]. destruct IH as [(j & A & B)|IH] || destruct IH as [IH|IH].
    - left. destruct IH as (j & A & B). exists j. split; [lia|exact B].
    - destruct (in_dec Nat.eq_dec n l) as [I|I]; [right|left; exists n; split; [lia|exact I]].
      intros j Hj. destruct (Nat.eq_dec j n) as [->|]; [exact I|apply IH; lia]. }
  destruct D as [(j & A & B)|D].
  - destruct (nth_error (st_contexts s) j) as [c|] eqn:E; [|apply nth_error_None in E; lia].
    exists j, c. split; [exact E|]. destruct (c_state c) eqn:ES; [reflexivity| |]; exfalso; apply B; apply (H j c E); unfold live; rewrite ES; discriminate.
  - exfalso. assert (X : (length (seq 0 (length (st_contexts s))) <= length l)%nat).
    { apply NoDup_incl_length; [apply seq_NoDup|]. intros j Hj. apply in_seq in Hj. apply D. lia. }
    rewrite seq_length in X. lia.
Qed.

Section Tool.
  Variable cf : config.
  Context {R : Type}.
  Variable pr : primitives R.
  Variables chain issuer serial ski : bytes.
  Notation dig := (backend_digest (prof cf)).
  Hypothesis RF : reference cf pr dig chain issuer serial ski.
  Hypothesis HBI : all_bytes issuer.
  Hypothesis HBS : all_bytes serial.
  Notation co := (rust_ops R pr (profile_alg (prof cf)) dig).
  Notation po := (default_platform chain issuer serial ski).
  Notation world := (world (rust_c R) unit).
  Notation gen := (x509_gen cf (rust_c R) unit co po).
  Notation exec := (exec_command cf (rust_c R) unit co po gen).

  Let Hcf : config_ok cf := rf_config _ _ _ _ _ _ _ RF.

  (** The state after [i] contexts have been derived: they form one chain, and only the
      last one is active. *)
  Record derived (cert : bool) (i : nat) (s : state) : Prop := {
    td_reach : reachable cf s;
    td_support : st_support s = tool_support cert;
    td_flags : st_flags s = 0;
    td_chain : exists k c l,
      at_slot s k c /\ c_state c = Active /\ c_locality c = 0 /\ c_handle c = repeat 0 16 /\ (cert = true -> c_x509 c = true) /\
      path s k l /\ length l = S i /\
      (forall j d, at_slot s j d -> live d -> In j l /\ tci_svn (c_tci d) = 0 /\ tci_type (c_tci d) <= N.of_nat i) /\
      (forall j d, at_slot s j d -> c_state d = Active -> j = k)
  }.

  Lemma tool_start cert c r w : dpe_new cf (rust_c R) unit co po (mkWorld (state_new cf (tool_support cert) 0) c tt []) = (r, w) ->
    r = Ok tt /\ derived cert 0 (w_st w).
  Proof.
    intros EN. pose (en := {| e_C := rust_c R; e_P := unit; e_crypto := co; e_platform := po; e_cert := gen |}).
    assert (US : u32 (tool_support cert)) by (destruct cert; reflexivity).
    destruct (C36_new_succeeds cf en (tool_support cert) 0 _ _ _ _ _ Hcf US EN) as [->|(pe & p' & _ & X & _)]; [|discriminate].
    split; [reflexivity|].
    assert (Hr : reachable cf (w_st w)).
    { destruct w as [s c' p o]. exists [EvNew (Ok tt)]. eapply (hi_create cf _ _ [] _ en); [apply hi_new, US|exact Logic.I| |intros; exact Logic.I].
      do 6 eexists. exact EN. }
    destruct (dpe_new_fresh cf en (tool_support cert) 0 (mkWorld (state_new cf (tool_support cert) 0) c tt []) (Ok tt) w eq_refl EN) as [_ [[E0 X]|(_ & _ & a & p' & EA & _ & E0)]].
    { exfalso. destruct X as [X _]. specialize (X eq_refl). destruct cert; discriminate X. }
    assert (Ea : a = 0) by (cbn in EA; injection EA as <- _; reflexivity). subst a. change (0 mod 2 ^ 32) with 0 in E0.
    assert (E1 : w_st w = auto_state cf (tool_support cert) 0 (auto_context 0 0 (repeat 0 (tci_size cf)) (repeat 0 (tci_size cf)))) by exact E0.
    clear E0. split; [exact Hr|rewrite E1; reflexivity|rewrite E1; reflexivity|].
    rewrite E1. unfold auto_state. set (x := auto_context _ _ _ _). set (s0 := set_init true _).
    assert (A0 : at_slot (put_ctx s0 0 x) 0 x).
    { assert (A1 : at_slot (state_new cf (tool_support cert) 0) 0 (ctx_new cf)) by (apply new_slot; split; [destruct Hcf; lia|reflexivity]).
      eapply at_put_same. exact A1. }
    assert (Only : forall j d, at_slot (put_ctx s0 0 x) j d -> live d -> j = 0%nat /\ d = x).
    { intros j d Hj HL. apply at_put_iff in Hj as [(<- & _ & ->)|[Hne Hj]]; [auto|].
      change (at_slot (state_new cf (tool_support cert) 0) j d) in Hj. apply new_slot in Hj as [_ ->]. exfalso. apply HL. reflexivity. }
    exists 0%nat, x, [0%nat]. split; [exact A0|]. split; [reflexivity|]. split; [reflexivity|]. split; [reflexivity|]. split; [intros _; reflexivity|]. split; [|split; [reflexivity|split]].
    - apply (path_root _ _ x); [exact A0|discriminate|reflexivity].
    - intros j d Hj HL. apply Only in Hj as [-> ->]; [|exact HL]. split; [left; reflexivity|]. split; [reflexivity|]. cbn. lia.
    - intros j d Hj HL. apply Only in Hj as [-> _]; [reflexivity|]. unfold live. rewrite HL. discriminate.
  Qed.

  Lemma derive_wf cert i : (i < 64)%nat -> command_wf cf (tool_derive cf cert i).
  Proof.
    intros Hi. assert (Z : forall n, byte_string n (repeat 0 n)).
    { intros n. split; [apply repeat_length|]. apply Forall_forall. intros y Hy. apply repeat_spec in Hy. subst y. reflexivity. }
    cbn [tool_derive command_wf dc_handle dc_data dc_flags dc_tci_type dc_target_locality dc_svn].
    split; [apply (Z 16%nat)|]. split; [apply Z|]. split; [destruct cert; reflexivity|]. split; [|split; reflexivity].
    unfold u32. apply N.lt_trans with 100; [lia|reflexivity].
  Qed.

  Lemma derived_names s k c : at_slot s k c -> c_state c = Active -> c_locality c = 0 -> c_handle c = repeat 0 16 ->
    (forall j d, at_slot s j d -> c_state d = Active -> j = k) -> first_slot (names s (repeat 0 16) 0) k.
  Proof. intros A B D E F. split; [exists c; auto|]. intros j Hj (d & X1 & X2 & _). apply (F j d X1) in X2. lia. Qed.

  Lemma tool_step cert i w r w' : derived cert i (w_st w) -> (S i < max_handles cf)%nat ->
    tool_execute R pr chain issuer serial ski cf (prof cf) (tool_derive cf cert i) w = (r, w') ->
    (exists resp, r = Ok resp) /\ derived cert (S i) (w_st w').
  Proof.
    intros D Hi H. pose proof D as [Hr Hsup Hfl (k & c & l & A & B & Hloc & Hh & Hx & Hp & Hl & Hlive & Hact)].
    pose proof (reachable_wf cf Hcf _ Hr) as W. assert (M64 : (max_handles cf <= 64)%nat) by (destruct Hcf; lia).
    pose proof (derive_wf cert i ltac:(lia)) as HW. unfold tool_execute in H.
    apply (execute_spec cf Hcf) in H as (r1 & w1 & EX & -> & Er1); [|apply x509_sane; exact Hcf|exact W|exact HW].
    set (w0 := mkWorld (w_st w) (w_c w) (w_p w) _) in EX.
    assert (L0 : length (w_out w0) = response_size cf (tool_derive cf cert i)) by (rewrite size_wire; apply repeat_length).
    assert (RM : (fixed_size cf (tool_derive cf cert i) <= length (w_out w0))%nat) by (rewrite L0; apply fixed_response; exact Logic.I).
    pose proof (derived_names _ _ _ A B Hloc Hh Hact) as HF.
    assert (B24 : N.testbit (tool_derive_flags cert) 24 = false) by (destruct cert; reflexivity).
    assert (B23 : N.testbit (tool_derive_flags cert) 23 = false) by (destruct cert; reflexivity).
    assert (B27 : N.testbit (tool_derive_flags cert) 27 = false) by (destruct cert; reflexivity).
    assert (B28 : N.testbit (tool_derive_flags cert) 28 = true) by (destruct cert; reflexivity).
    assert (B29 : N.testbit (tool_derive_flags cert) 29 = false) by (destruct cert; reflexivity).
    assert (NC : forall j d, at_slot (w_st w) j d -> live d -> tci_type (c_tci d) <> N.of_nat i + 1) by (intros j d X Y; destruct (Hlive j d X Y) as (_ & _ & Z); lia).
    assert (LG : legitimate cf po (tool_derive cf cert i) 0 (w_st w)).
    { cbn [legitimate tool_derive dc_flags dc_handle]. rewrite B24, B23, B28, B27, B29. split; [|exists k, c; split; [split; assumption|split; [|split]]].
      - unfold unsupported_option, supports. rewrite Hsup. destruct cert; vm_compute; intuition congruence.
      - unfold bad_request. cbn [dc_flags dc_tci_type]. rewrite B24, B23. intros [[X1 X2]|[[X _]|[[X _]|[_ (j & d & X1 & X2 & X3)]]]]; try discriminate.
        + destruct cert; [rewrite (Hx eq_refl) in X2; discriminate|discriminate X1].
        + destruct X2 as (d' & Y1 & Y2 & _). assert (d' = d) by (unfold at_slot in *; congruence). subst d'. exact (NC j d X1 Y2 X3).
      - apply (some_free (w_st w) l); [rewrite Hl, (fo_size _ _ (wf_forest _ _ W)); exact Hi|]. intros j d X Y. apply (Hlive j d X Y).
      - intros j d X1 X2 _. assert (j = k) by (eapply Hact; eauto). subst j. assert (d = c) by (unfold at_slot in *; congruence). subst d. auto. }
    assert (NE : forall e, r1 <> Err e).
    { intros e ->. pose proof EX as EX'. apply (C52_errors cf R pr dig chain issuer serial ski (tool_derive cf cert i) 0 w0 _ w1 RF Hr HW Logic.I) in EX'; [|lia|].
      2: { destruct (C42_reference cf R pr dig chain issuer serial ski (tool_derive cf cert i) 0 w0 e w1 Hcf) as [X|X]; [pose proof (rf_artifacts _ _ _ _ _ _ _ RF) as (_ & Y & _); lia|exact Hr|exact HW|exact EX| |].
           - eapply refused_env; [|exact LG|exact RM|exact X]. intros d b sg b'. apply ref_variant; [apply (rf_sound _ _ _ _ _ _ _ RF)|apply Hcf].
           - cbn [writer_refusal tool_derive dc_flags] in X. rewrite B23 in X. destruct X as [X _]. discriminate X. }
      destruct e; try contradiction EX'; cbn [ref_reason uses_key exports_cdi asks_request tool_derive dc_flags] in EX'; rewrite ?B23 in EX'.
      - destruct EX' as [(-> & _)|(_ & X & _)]; [|destruct X].
        destruct (C42_reference cf R pr dig chain issuer serial ski (tool_derive cf cert i) 0 w0 (InternalError HandleGenerationExhausted) w1 Hcf) as [X|X]; [pose proof (rf_artifacts _ _ _ _ _ _ _ RF) as (_ & Y & _); lia|exact Hr|exact HW|exact EX| |].
        + unfold refusal in X. cbn [tool_derive] in X. cbv zeta in X. cbn [dc_flags] in X. rewrite B24, B23, B28, B29 in X.
          destruct X as [[X _]|[[X _]|[[_ X]|(j & d & _ & _ & [[X _]|[[X _]|[[X _]|[[X _]|[X|[X _]]]]]])]]]; try discriminate X.
          * unfold denied in X. destruct X as [[X _]|[X _]]; discriminate X.
          * destruct X as [(ce & X & _)|[X _]]; discriminate X.
        + cbn [writer_refusal tool_derive dc_flags] in X. rewrite B23 in X. destruct X as [X _]. discriminate X.
      - destruct EX' as (_ & off & size & X & _). discriminate X.
      - destruct EX' as [(_ & X & _)|(_ & X & _)]; discriminate X. }
    destruct r1 as [n|e|cr]; [|destruct (NE e eq_refl)|].
    2: { exfalso. eapply (C52_no_crash cf R pr dig chain issuer serial ski); [exact Hcf|apply (rf_artifacts _ _ _ _ _ _ _ RF)|apply (rf_fuel _ _ _ _ _ _ _ RF)| |exact EX]. exact Hr. }
    destruct Er1 as (resp & -> & _). split; [eauto|]. cbn [w_st].
    assert (Hr1 : reachable cf (w_st w1)).
    { pose (en := {| e_C := rust_c R; e_P := unit; e_crypto := co; e_platform := po; e_cert := gen |}).
      destruct Hr as [h Hh']. exists (EvCommand (tool_derive cf cert i) 0 (Ok n) :: h).
      eapply (hi_command cf _ _ h (w_st w) en); [exact Hh'|exact Logic.I|exact HW|reflexivity|exact Logic.I|].
      destruct w1 as [s1 c1 p1 o1]. do 6 eexists. exact EX. }
    apply (command_effect cf _ _ co po gen Hcf) in EX; [|exact W]. destruct EX as [(n' & _ & EF)|[X _]]; [|destruct (X n eq_refl)].
    change (w_st w0) with (w_st w) in EF. cbn [effect tool_derive dc_flags] in EF. rewrite B24, B23 in EF.
    destruct EF as (p & pc & pc' & q & h & dg & (G1 & G2 & _) & [(qc & Q1 & Q2) _] & _ & (SG & SL & SO) & _ & _ & Hh0 & N1 & N2 & SI & ST & _ & PS).
    cbn [tool_derive dc_flags dc_handle dc_tci_type dc_svn dc_data] in *. rewrite B28, B27, B29 in *. subst h.
    assert (p = k) by (eapply first_slot_det; eauto). subst p. assert (pc = c) by (unfold at_slot in *; congruence). subst pc.
    assert (QK : q <> k) by (intros ->; assert (qc = c) by (unfold at_slot in *; congruence); subst qc; congruence).
    destruct SI as (SP & SI). destruct PS as [PS _].
    assert (Back : forall j d, at_slot (w_st w1) j d -> live d -> j = q \/ (j = k /\ d = pc') \/ (j <> k /\ j <> q /\ at_slot (w_st w) j d)).
    { intros j d X _. destruct (Nat.eq_dec j q) as [|Nq]; [auto|]. destruct (Nat.eq_dec j k) as [->|Nk]; [right; left; split; [reflexivity|unfold at_slot in *; congruence]|].
      right; right. split; [exact Nk|]. split; [exact Nq|]. unfold at_slot in *. rewrite <- SO; [exact X|]. intros [Y|Y]; contradiction. }
    destruct SG as (_ & _ & SS & SF & _).
    split; [exact Hr1|congruence|congruence|]. eexists q, _, (q :: l). split; [exact N1|]. split; [reflexivity|]. split; [reflexivity|]. split; [reflexivity|].
    split; [intros ->; reflexivity|]. split; [|split; [cbn [length]; rewrite Hl; reflexivity|split]].
    - apply (path_step _ _ _ _ N1); [discriminate| |].
      + cbn [c_parent]. intros E. unfold at_slot in A. assert (KL : (k < length (st_contexts (w_st w)))%nat) by (apply nth_error_Some; congruence).
        rewrite (fo_size _ _ (wf_forest _ _ W)) in KL. unfold ROOT in E. lia.
      + cbn [c_parent]. eapply path_moved; [|exact Hp]. intros j d X Y. destruct (Nat.eq_dec j k) as [->|Nk].
        * assert (d = c) by (unfold at_slot in *; congruence). subst d. exists pc'. split; [exact N2|]. split; [unfold live; rewrite PS; discriminate|exact SP].
        * exists d. split; [|auto]. unfold at_slot in *. rewrite SO; [exact X|]. intros [Z|Z]; [contradiction|]. subst j.
          apply Y. assert (d = qc) by congruence. subst d. exact Q2.
    - intros j d X Y. destruct (Back j d X Y) as [->|[[-> ->]|(_ & _ & X')]].
      + split; [left; reflexivity|]. unfold at_slot in X, N1. rewrite N1 in X.
        apply (f_equal (option_map (fun y => (tci_svn (c_tci y), tci_type (c_tci y))))) in X. cbn [option_map c_tci tci_svn tci_type] in X.
        assert (Es : tci_svn (c_tci d) = 0) by congruence. assert (Et : tci_type (c_tci d) = N.of_nat i + 1) by congruence. split; [exact Es|lia].
      + destruct (Hlive k c A) as (I1 & I2 & I3); [unfold live; rewrite B; discriminate|]. split; [right; exact I1|]. rewrite ST. split; [exact I2|lia].
      + destruct (Hlive j d X' Y) as (I1 & I2 & I3). split; [right; exact I1|]. split; [exact I2|lia].
    - intros j d X Y. destruct (Back j d X ltac:(unfold live; rewrite Y; discriminate)) as [->|[[-> ->]|(N & _ & X')]]; [reflexivity|congruence|].
      destruct (N (Hact j d X' Y)).
  Qed.

  Lemma tool_run cert n : forall k i w, derived cert i (w_st w) -> (i + k = n)%nat -> (n < max_handles cf)%nat ->
    exists w', tool_contexts R pr chain issuer serial ski cf (prof cf) cert k i w = inr w' /\ derived cert n (w_st w').
  Proof.
    induction k as [|k IH]; intros i w D E L; cbn [tool_contexts].
    - exists w. split; [reflexivity|]. replace n with i by lia. exact D.
    - destruct (tool_execute _ _ _ _ _ _ _ _ _ w) as [r w'] eqn:EX. apply (tool_step cert i) in EX as [(resp & ->) D']; [|exact D|lia].
      apply (IH (S i) w' D'); lia.
  Qed.

  Lemma tool_digest : N.of_nat (tci_size cf) = digest_size (prof cf).
  Proof. rewrite <- (rf_digest _ _ _ _ _ _ _ RF). destruct (prof cf); reflexivity. Qed.

  (** The size of [n] measurements with an SVN of 0. *)
  Definition tool_chain (p : profile) (n : nat) : N := N.of_nat n * match p with P256Sha256 => 122 | _ => 155 end.
  Lemma zero_chain p cts : Forall (fun c => tci_svn (c_tci c) = 0) cts -> chain_size p true cts = tool_chain p (length cts).
  Proof.
    unfold tool_chain. induction 1 as [|c l H _ IH]; [reflexivity|]. cbn [chain_size length]. rewrite IH, H.
    assert (E1 : entry_size p true 0 = match p with P256Sha256 => 122 | _ => 155 end) by (destruct p; reflexivity). rewrite E1, Nat2N.inj_succ. lia.
  Qed.

  (** What is measured for a chain of [n] contexts. *)
  Definition expected (cert : bool) (n : nat) (x : N) : Prop :=
    let u := match prof cf with P256Sha256 => 32 | _ => 48 end in
    exists b o, bits_range (prof cf) b /\ octets_range (prof cf) o /\
      x = if cert then cert_octets (prof cf) (len issuer) u (tool_chain (prof cf) n) b
          else request_octets (prof cf) (len issuer) (len (tlv code_len 2 (code_int serial))) u (tool_chain (prof cf) n) b o.

  Lemma certify_wf_tool cert : command_wf cf (tool_certify (prof cf) cert).
  Proof.
    assert (Z : forall n, byte_string n (repeat 0 n)).
    { intros n. split; [apply repeat_length|]. apply Forall_forall. intros y Hy. apply repeat_spec in Hy. subst y. reflexivity. }
    unfold tool_certify. destruct (prof cf); cbn [command_wf]; unfold certify_wf; cbn [ck_handle ck_flags ck_format ck_label];
      (split; [apply (Z 16%nat)|]); destruct cert; repeat split; try reflexivity; try apply (Z 32%nat); try apply (Z 48%nat).
  Qed.

  Lemma derived_lineage i s k l : path s k l -> length l = S i -> (forall j d, at_slot s j d -> live d -> tci_svn (c_tci d) = 0) ->
    exists cts, lineage s k cts /\ length cts = S i /\ Forall (fun c => tci_svn (c_tci c) = 0) cts.
  Proof.
    intros Hp Hl Hlive. destruct (path_chain _ _ _ Hp) as [cts F]. exists cts. split; [exists l; auto|].
    split; [rewrite <- Hl; clear - F; induction F; cbn [length]; congruence|].
    pose proof (path_live _ _ _ Hp) as PL. clear Hp Hl. revert PL. induction F as [|j c l' cts' A _ IH]; intros PL; constructor.
    - destruct (PL j (or_introl eq_refl)) as (d & X & Y). assert (d = c) by (unfold at_slot in *; congruence). subst d. apply (Hlive j c X Y).
    - apply IH. intros x Hx. apply PL. right. exact Hx.
  Qed.

  Lemma tool_key cert i w : derived cert i (w_st w) ->
    let m := tool_measure_key R pr chain issuer serial ski cf (prof cf) cert w in
    (exists x, m = Size cert x /\ expected cert (S i) x /\ x <= max_cert_size cf) \/
    (m = NoKey (CryptoErr (bad_key (profile_alg (prof cf)))) /\
       exists salt ikm info k, pr_kdf pr (profile_alg (prof cf)) salt ikm info = Some k /\ pr_usable pr (profile_alg (prof cf)) k = false) \/
    (m = NoKey (InternalError CertSizeOverflow) /\ cert = false /\ S i = max_handles cf).
  Proof.
    intros D m. unfold tool_measure_key in m. pose proof D as [Hr Hsup Hfl (k & c & l & A & B & Hloc & Hh & Hx & Hp & Hl & Hlive & Hact)].
    pose proof (reachable_wf cf Hcf _ Hr) as W. pose proof (certify_wf_tool cert) as HW.
    pose proof (derived_names _ _ _ A B Hloc Hh Hact) as HF.
    destruct (derived_lineage i _ _ _ Hp Hl (fun j d X Y => proj1 (proj2 (Hlive j d X Y)))) as (cts & HL & Lc & Hsvn).
    set (cmd := tool_certify (prof cf) cert) in *.
    set (kc := {| ck_handle := repeat 0 handle_size; ck_flags := 0; ck_format := if cert then 0 else 1; ck_label := repeat 0 (profile_hash_size (prof cf)) |}).
    assert (EC : exists cc, cmd = CmdCertifyKey cc /\ certify_inner cc = kc /\ certify_profile cc = prof cf).
    { unfold cmd, tool_certify. fold kc. destruct (prof cf) eqn:EP; eexists; (split; [reflexivity|]); split; reflexivity. }
    destruct EC as (cc & EC & Ei & Epf).
    assert (FP : WireSpec.for_profile cf cmd) by (rewrite EC; destruct cc; cbn [certify_profile] in Epf; cbn; congruence).
    unfold tool_execute in m. subst m.
    destruct (execute _ _ _ _ _ _ cmd 0 w) as [r w'] eqn:EX.
    apply (execute_spec cf Hcf) in EX as (r1 & w1 & EX & -> & Er1); [|apply x509_sane; exact Hcf|exact W|exact HW].
    set (w0 := mkWorld (w_st w) (w_c w) (w_p w) _) in EX.
    assert (L0 : length (w_out w0) = response_size cf cmd) by (rewrite size_wire; apply repeat_length).
    assert (RM : (fixed_size cf cmd <= length (w_out w0))%nat) by (rewrite L0; apply fixed_response; rewrite EC; exact Logic.I).
    assert (LG : legitimate cf po cmd 0 (w_st w)).
    { rewrite EC. cbn [legitimate]. exists (repeat 0 16), k, c. split; [|split; [split; assumption|]].
      - assert (E1 : repeat 0 16 = ck_handle (certify_inner cc)) by (rewrite Ei; reflexivity). rewrite E1. destruct cc; reflexivity.
      - rewrite <- Epf. assert (Q : (ck_format (certify_inner cc) = 0 /\ supports (w_st w) X509 /\ c_x509 c = true) \/ (ck_format (certify_inner cc) = 1 /\ supports (w_st w) CSR)).
        { rewrite Ei. unfold supports. rewrite Hsup. destruct cert; [left|right]; split; try reflexivity. split; [reflexivity|apply Hx; reflexivity]. }
        destruct cc; exact Q. }
    destruct (C52_available cf R pr dig chain issuer serial ski cmd 0 w0 r1 w1 RF Hr HW FP LG RM ltac:(lia) EX) as [(n & ->)|(e & -> & RE)].
    - left. destruct Er1 as (resp & -> & AN & EB & _). rewrite EC in EX, AN.
      pose proof EX as EX'. apply (certify_created cf co po) in EX' as (cr & wc & pk & HC & En & _ & PK & Sz & _); [|exact W].
      rewrite Epf, Ei in *. cbn [w_st] in HC. change (w_st w0) with (w_st w) in HC.
      assert (RS : exists p h x q z b, resp = RespCertifyKey p h x q z b) by (destruct AN as [_ AN]; destruct resp; try contradiction AN; do 6 eexists; reflexivity).
      destruct RS as (p & h & hd & q & z & b & ->). destruct AN as (_ & Ep & [Lx _] & [Lp _] & Un & [Lcert _]). rewrite Epf in Ep. subst p.
      assert (CR : exists x, x = cr_size cr /\ expected cert (S i) x /\ (certify_hdr_size (prof cf) + N.to_nat x <= length (w_out w0))%nat).
      { exists (cr_size cr). split; [reflexivity|].
        pose proof (rust_keys_fit pr (profile_alg (prof cf)) dig cf eq_refl) as KF. pose proof (reference_signatures pr dig cf) as SF.
        assert (EV : even_svns cts).
        { apply uniform_even. intros y1 y2 Ha Hb. rewrite Forall_forall in Hsvn. unfold svn_len. rewrite (Hsvn y1 Ha), (Hsvn y2 Hb). reflexivity. }
        assert (SR : sup_recursive (st_support (w_st w)) = true) by (rewrite Hsup; destruct cert; reflexivity).
        assert (CRI : flag_dice_critical (st_flags (w_st w)) = false) by (rewrite Hfl; reflexivity).
        assert (LU : len (repeat 0 (profile_hash_size (prof cf))) = match prof cf with P256Sha256 => 32 | _ => 48 end) by (unfold len; rewrite repeat_length; destruct (prof cf); reflexivity).
        assert (LU' : len (repeat 0 (profile_hash_size (prof cf))) <= 48) by (rewrite LU; destruct (prof cf); lia).
        pose proof (rf_artifacts _ _ _ _ _ _ _ RF) as RA.
        unfold expected. rewrite <- Lc, <- (zero_chain (prof cf) cts Hsvn), <- LU, <- SR.
        destruct cert; cbn [kc ck_format N.eqb] in HC.
        - destruct (create_cert_exact cf Hcf pr dig chain issuer serial ski RA HBI HBS tool_digest KF SF
                      (certify_args cf kc 0 (w_st w)) _ w0 cr wc k cts HC W HF HL EV CRI LU') as (sb & B1 & B2 & B3).
          split; [|exact B3]. exists sb, (match prof cf with Mldsa87 => 4631 | _ => 10 end). split; [exact B1|]. split; [unfold octets_range; destruct (prof cf); lia|]. exact B2.
        - destruct (create_request_exact cf Hcf pr dig chain issuer serial ski RA HBI HBS tool_digest KF SF
                      (certify_args cf kc 0 (w_st w)) _ w0 cr wc k cts HC W HF HL EV CRI LU') as (sb & so & B1 & B2 & B3 & B4).
          split; [|exact B4]. exists sb, so. split; [exact B1|]. split; [exact B2|exact B3]. }
      destruct CR as (x & Ex & EXP & Rm).
      assert (LO : length (w_out w0) = (certify_hdr_size (prof cf) + N.to_nat (max_cert_size cf))%nat).
      { rewrite L0, (size_wire cf), EC. cbn [wire_size]. rewrite Epf. unfold certify_hdr_size, mldsa87_pk_size. destruct (prof cf); lia. }
      assert (Hxm : x <= max_cert_size cf) by lia.
      assert (Ez : z = x).
      { apply (le_bytes_inj 4); [exact Un|pose proof (small_area cf Hcf); cbn; lia|]. rewrite Ex, <- Sz, <- EB. symmetry. unfold response_bytes.
        cbn [response_fields hdr_fields concat app].
        match goal with |- slice (?a ++ ?b ++ ?c ++ ?x ++ ?y ++ ?q ++ ?r) _ _ = _ =>
          replace (a ++ b ++ c ++ x ++ y ++ q ++ r) with ((a ++ b ++ c ++ x ++ y) ++ q ++ r) by (rewrite <- ?app_assoc; reflexivity) end.
        apply slice_at; [|apply length_le_bytes]. rewrite !app_length, !length_le_bytes, Lx, Lp. unfold certify_hdr_size, mldsa87_pk_size. destruct (prof cf); lia. }
      exists x. split; [|split; [exact EXP|exact Hxm]]. cbn [response_cert]. unfold prefix_or. rewrite Ez, Lcert, N2Nat.id.
      destruct (N.leb_spec x (max_cert_size cf)); [|lia]. f_equal. rewrite firstn_length, Lcert. lia.
    - right. subst r. destruct e; try contradiction RE; cbn [ref_reason] in RE.
      + destruct RE as [(-> & _)|(-> & AR & h & j & cts' & Hh' & HF' & HL' & Lc')].
        * exfalso. destruct (C42_reference cf R pr dig chain issuer serial ski cmd 0 w0 (InternalError HandleGenerationExhausted) w1 Hcf) as [X|X];
            [pose proof (rf_artifacts _ _ _ _ _ _ _ RF) as (_ & Y & _); lia|exact Hr|exact HW|exact EX| |].
          -- rewrite EC in X. unfold refusal in X. destruct X as [[X _]|(kk & hk & Ek & Kk & [[_ X]|(j & x & [(x0 & N1 & _ & _ & N4) _] & X1 & X)])]; [discriminate X| |].
             ++ unfold denied in X. destruct X as [[X _]|[X _]]; discriminate X.
             ++ assert (Eh : ck_handle hk = repeat 0 16).
                { assert (E2 : certify_inner cc = hk) by (rewrite Ek; destruct Kk as [-> |[-> | ->]]; reflexivity). rewrite <- E2, Ei. reflexivity. }
                assert (x0 = x) by (unfold at_slot in *; congruence). subst x0.
                destruct X as [[X _]|[[X _]|[(a & b0 & p0 & out & c' & p' & out' & _ & _ & _ & _ & _ & X)|[[X _]|[X _]]]]]; try discriminate X.
                apply X. congruence.
          -- rewrite EC in X. unfold writer_refusal in X. assert (CX : forall kd hk u rm, cert_refusal cf co po (N.of_nat (length issuer)) 0 kd hk 0 (w_st w0) u rm (InternalError HandleGenerationExhausted) -> False).
             { intros kd hk u rm [[_ Y]|(j & ct & _ & _ & [Y|[(ce & Y & _)|[(pe & Y & _)|(Y & _)]]])]; try discriminate Y.
               - unfold denied in Y. destruct Y as [[Y _]|[Y _]]; discriminate Y.
               - destruct Y as [(ce & Y & _)|[(pe & Y & _)|(Y & _)]]; discriminate Y. }
             destruct cc; cbv zeta in X; destruct X as [[_ X]|[_ X]]; eapply CX; exact X.
        * right. split; [reflexivity|].
          assert (EH : h = repeat 0 16) by (assert (E2 : h = ck_handle (certify_inner cc)) by (rewrite EC in Hh'; destruct cc; exact Hh'); rewrite E2, Ei; reflexivity).
          subst h. assert (j = k) by (eapply first_slot_det; eauto). subst j. rewrite (lineage_det _ _ _ _ HL HL') in Lc. split; [|congruence].
          destruct cert; [|reflexivity]. exfalso. assert (AQ : ck_format (certify_inner cc) <> 0) by (rewrite EC in AR; destruct cc; exact AR). rewrite Ei in AQ. apply AQ. reflexivity.
      + destruct RE as (_ & off & size & X & _). rewrite EC in X. discriminate X.
      + left. destruct RE as [(-> & _ & X)|(_ & X & _)]; [split; [reflexivity|exact X]|]. rewrite EC in X. destruct X.
  Qed.
End Tool.

(** ** How sizes grow with the number of contexts *)

(** What the lengths around [n] measurements add to those around one. *)
Definition cert_extra (p : profile) (n : nat) : N :=
  match p, n with P256Sha256, 1%nat => 0 | P256Sha256, 2%nat => 3 | P256Sha256, _ => 5 | _, 1%nat => 0 | _, _ => 3 end.
Definition request_extra (p : profile) (n : nat) : N :=
  match p, n with P256Sha256, 1%nat => 0 | P256Sha256, 2%nat => 6 | P256Sha256, _ => 8 | _, 1%nat => 0 | _, _ => 3 end.

Ltac long := match goal with |- context [tlv_size ?t] => lazymatch t with context [tlv_size _] => fail | _ => rewrite (tlv_long t) by lia end end.
Lemma multi_long x : 256 <= x <= 10000 -> multi_size x = x + 20.
Proof. intros H. unfold multi_size. repeat long. lia. Qed.
Lemma exts_long q u x : 256 <= multi_size x <= 11000 -> u <= 48 -> exts_size q u x = multi_size x + u + 73 + if q then 33 else 0.
Proof. intros H HU. unfold exts_size. rewrite tlv_long by (destruct q; lia). destruct q; lia. Qed.

Lemma cert_of_exts p a u x b : a <= 97 -> b <= 4632 -> 256 <= exts_size true u x <= 12000 ->
  cert_octets p a u x b = exts_size true u x + a + b + 171 + 2 * alg_max p + spki_max p.
Proof.
  intros HA HB HX. unfold cert_octets. set (e := exts_size true u x) in *.
  assert (P : alg_max p <= 15 /\ spki_max p <= 2700) by (destruct p; vm_compute; split; discriminate). destruct P as [P1 P2].
  clearbody e. repeat long. lia.
Qed.
Lemma request_of_exts p a s u x b o : 256 <= 99 + spki_max p + tlv_size (tlv_size (11 + tlv_size (exts_size false u x))) <= 20000 ->
  a <= 97 -> s <= 23 -> b <= 4632 -> o <= 4631 ->
  request_octets p a s u x b o =
    tlv_size (tlv_size (11 + tlv_size (exts_size false u x))) + spki_max p + alg_max p + b + 171 +
    tlv_size (tlv_size (a + s + 18 + alg_max p + o)).
Proof.
  intros HX HA HS HB HO. unfold request_octets. set (e := tlv_size (tlv_size (11 + _))) in *.
  assert (P : alg_max p <= 15 /\ spki_max p <= 2700) by (destruct p; vm_compute; split; discriminate). destruct P as [P1 P2].
  cbv zeta. rewrite (tlv_short (a + s)) by lia.
  replace (3 + (a + s + 2) + 13 + alg_max p + o) with (a + s + 18 + alg_max p + o) by lia.
  set (g := tlv_size (tlv_size (a + s + 18 + alg_max p + o))) in *.
  assert (GB : g <= 6000).
  { unfold g. assert (T : forall n, n <= 5500 -> tlv_size n <= n + 4).
    { intros n Hn. unfold tlv_size. destruct (N.ltb n 128), (N.ltb n 256); try lia. destruct (N.ltb_spec n 65536); lia. }
    pose proof (T (a + s + 18 + alg_max p + o) ltac:(lia)) as T1. pose proof (T _ (N.le_trans _ _ 5500 T1 ltac:(lia))) as T2. lia. }
  clearbody e g. repeat long. lia.
Qed.

Lemma cert_growth p a b n : a <= 97 -> bits_range p b -> (1 <= n <= 64)%nat ->
  let u := match p with P256Sha256 => 32 | _ => 48 end in
  cert_octets p a u (tool_chain p n) b = cert_octets p a u (tool_chain p 1) b + (tool_chain p n - tool_chain p 1) + cert_extra p n.
Proof.
  intros HA HB HN u. assert (B : b <= 4632) by (unfold bits_range in HB; destruct p; lia).
  assert (X : exts_size true u (tool_chain p n) = exts_size true u (tool_chain p 1) + (tool_chain p n - tool_chain p 1) + cert_extra p n /\
              256 <= exts_size true u (tool_chain p 1) /\ exts_size true u (tool_chain p n) <= 12000).
  { destruct (Nat.eq_dec n 1) as [->|N1]; [subst u; destruct p; vm_compute; repeat split; discriminate|].
    destruct (Nat.eq_dec n 2) as [->|N2]; [subst u; destruct p; vm_compute; repeat split; discriminate|].
    assert (TC : 310 <= tool_chain p n <= 10000) by (unfold tool_chain; destruct p; lia).
    rewrite (exts_long true u (tool_chain p n)) by (rewrite ?multi_long by lia; subst u; destruct p; lia). rewrite multi_long by lia.
    assert (E1 : exts_size true u (tool_chain p 1) = match p with P256Sha256 => 275 | _ => 326 end) by (subst u; destruct p; reflexivity). rewrite E1.
    assert (CE : cert_extra p n = match p with P256Sha256 => 5 | _ => 3 end) by (destruct p, n as [|[|[|n]]]; try reflexivity; lia). rewrite CE.
    change (tool_chain p 1) with (1 * match p with P256Sha256 => 122 | _ => 155 end) in *. subst u. destruct p; lia. }
  destruct X as (X1 & X2 & X3). rewrite (cert_of_exts p a u (tool_chain p n) b), (cert_of_exts p a u (tool_chain p 1) b) by lia. lia.
Qed.

Lemma request_growth p a s b o n : a <= 97 -> s <= 23 -> bits_range p b -> octets_range p o -> (1 <= n <= 64)%nat ->
  let u := match p with P256Sha256 => 32 | _ => 48 end in
  request_octets p a s u (tool_chain p n) b o = request_octets p a s u (tool_chain p 1) b o + (tool_chain p n - tool_chain p 1) + request_extra p n.
Proof.
  intros HA HS HB HO HN u. assert (B : b <= 4632) by (unfold bits_range in HB; destruct p; lia).
  assert (O : o <= 4631) by (unfold octets_range in HO; destruct p; lia).
  set (f := fun x => tlv_size (tlv_size (11 + tlv_size (exts_size false u x)))).
  assert (X : f (tool_chain p n) = f (tool_chain p 1) + (tool_chain p n - tool_chain p 1) + request_extra p n /\
              256 <= f (tool_chain p 1) /\ f (tool_chain p n) <= 12000).
  { destruct (Nat.eq_dec n 1) as [->|N1]; [unfold f; subst u; destruct p; vm_compute; repeat split; discriminate|].
    destruct (Nat.eq_dec n 2) as [->|N2]; [unfold f; subst u; destruct p; vm_compute; repeat split; discriminate|].
    assert (TC : 310 <= tool_chain p n <= 10000) by (unfold tool_chain; destruct p; lia).
    assert (E1 : f (tool_chain p 1) = match p with P256Sha256 => 262 | _ => 316 end) by (unfold f; subst u; destruct p; reflexivity). rewrite E1.
    assert (CE : request_extra p n = match p with P256Sha256 => 8 | _ => 3 end) by (destruct p, n as [|[|[|n]]]; try reflexivity; lia). rewrite CE.
    unfold f. rewrite (exts_long false u (tool_chain p n)) by (rewrite ?multi_long by lia; subst u; destruct p; lia). rewrite multi_long by lia.
    assert (HU : 32 <= u <= 48) by (subst u; destruct p; lia).
    repeat long.
    change (tool_chain p 1) with (1 * match p with P256Sha256 => 122 | _ => 155 end) in *. subst u. destruct p; lia. }
  assert (P2 : spki_max p <= 2700) by (destruct p; vm_compute; discriminate).
  destruct X as (X1 & X2 & X3). unfold f in X1, X2, X3.
  rewrite (request_of_exts p a s u (tool_chain p n) b o), (request_of_exts p a s u (tool_chain p 1) b o) by lia. lia.
Qed.
