(** SamplesAvail.v -- when the sample programs succeed. *)
From Coq Require Import String.
From Verif Require Import Base Errors Types StateOps Env Wire Instance Commands RespBuf Response X509 X509Cert RustCrypto DefaultPlatform Simulator Samples
  Lib Spec Exec Effects Forest History WireSpec Contract Codec Steps Reach CommandSpecs Responses Execute Walk Measure Reasons Explain Avail Ledger SimulatorProofs Der DerProofs
  X509Run X509Spec X509Gen X509Sane X509Facts X509Out X509Cmd Buffers Fits PlatformProofs RustProofs Trace TraceCmds TraceRust RefFaults
  X509Fail Props_Commands Props_Avail Props_Reference Props_Size Props_Fail Props_Calls Props_Harness KeyProofs SamplesProofs.
Open Scope N_scope.

(** Any eight blocks of 16 bytes drawn in a row are different. *)
Definition block_after {R} (pr : primitives R) (g : R) (n : nat) : bytes := to_buf 16 (fst (pr_fill pr 16 (after pr n g))).
Definition varied {R} (pr : primitives R) : Prop := forall g, NoDup (map (block_after pr g) (seq 0 8)).

Section Avail.
  Variable cf : config.
  Context {R : Type}.
  Variable pr : primitives R.
  Variables chain issuer serial ski : bytes.
  Notation dig := (backend_digest (prof cf)).
  Hypothesis RF : reference cf pr dig chain issuer serial ski.
  Notation co := (rust_ops R pr (profile_alg (prof cf)) dig).
  Notation po := (default_platform chain issuer serial ski).
  Notation world := (world (rust_c R) unit).
  Notation gen := (x509_gen cf (rust_c R) unit co po).
  Notation exec := (exec_command cf (rust_c R) unit co po gen).
  Notation send := (send cf R pr chain issuer serial ski).
  Notation sample_derive := (sample_derive cf R pr chain issuer serial ski).
  Notation sample_certify := (sample_certify cf R pr chain issuer serial ski).

  (** Eight unusable handles cannot be different if few slots are in use. *)
  Lemma few_handles s l w w' : varied pr -> shape s l -> (List.length l <= 6)%nat -> w_st w' = s -> ~ eight_draws cf pr dig w w'.
  Proof.
    intros V (f & E & _ & FB) LL Es (t & HP & t0 & bs & -> & Lb & U). rewrite Es in U. clear Es.
    apply performs_split in HP as (c1 & HP). pose proof (draws_of pr _ dig bs _ _ HP) as D.
    assert (EB : map (to_buf 16) bs = map (block_after pr (rc_rng c1)) (seq 0 8)).
    { apply list_ext. intros n. rewrite !nth_error_map. destruct (nth_error bs n) as [b|] eqn:En.
      - assert (n < 8)%nat by (rewrite <- Lb; apply nth_error_Some; congruence).
        rewrite (nth_error_nth' _ 0%nat) by (rewrite seq_length; lia). rewrite seq_nth by lia. cbn [option_map Nat.add]. f_equal.
        unfold block_after. f_equal. exact (D n b En).
      - apply nth_error_None in En. assert (X : nth_error (seq 0 8) n = None) by (apply nth_error_None; rewrite seq_length; lia). rewrite X. reflexivity. }
    specialize (V (rc_rng c1)). rewrite <- EB in V.
    assert (IN : incl (map (to_buf 16) bs) (repeat 0 16 :: map c_handle l)).
    { intros x Hx. apply in_map_iff in Hx as (b & <- & Hb). rewrite Forall_forall in U. destruct (U b Hb) as [Z|(c & Hc & Z)]; [left; auto|].
      rewrite E in Hc. apply in_app_or in Hc as [Hc|Hc]; [right; rewrite <- Z; apply in_map; exact Hc|].
      rewrite Forall_forall in FB. destruct (FB c Hc) as [_ HB]. left. congruence. }
    pose proof (NoDup_incl_length V IN) as X. rewrite map_length, Lb in X. cbn [List.length] in X. rewrite map_length in X. lia.
  Qed.

  Lemma called_room cmd (w : world) : (match cmd with CmdSign _ => feat_p384 cf = false /\ feat_mldsa cf = false | _ => True end) ->
    (fixed_size cf cmd <= List.length (w_out (called cf cmd w)))%nat /\ (response_size cf cmd <= List.length (w_out (called cf cmd w)))%nat.
  Proof.
    intros H. assert (L : List.length (w_out (called cf cmd w)) = response_size cf cmd) by (unfold called; cbn [w_out]; rewrite repeat_length, size_wire; reflexivity).
    rewrite L. split; [apply fixed_response; exact H|lia].
  Qed.

  (** A DeriveContext of the samples is answered, unless eight draws failed. *)
  Lemma derive_avail h data ty svn flags w l p pc :
    reachable cf (w_st w) -> byte_string 16 h -> byte_string (tci_size cf) data -> u32 ty -> u32 svn -> plain flags ->
    supports (w_st w) X509 -> (flags = bit 29 -> supports (w_st w) RETAIN_PARENT_CONTEXT) ->
    shape (w_st w) l -> (List.length l < max_handles cf)%nat ->
    first_slot (names (w_st w) h 0) p -> nth_error l p = Some pc -> c_x509 pc = true ->
    (forall j d, nth_error l j = Some d -> c_parent d = p -> tci_type (c_tci d) <> ty) ->
    (flags = bit 28 -> forall j d, nth_error l j = Some d -> c_state d = Active -> j = p /\ c_handle d = repeat 0 16) ->
    (flags <> bit 28 -> forall j d, nth_error l j = Some d -> c_state d = Active -> c_handle d = repeat 0 16 -> j = p /\ flags = 0) ->
    (exists ph ch w', sample_derive h data ty svn flags w = (Some (ph, ch), w')) \/
    (flags <> bit 28 /\ exists w0 w', eight_draws cf pr dig w0 w' /\ w_st w' = w_st w).
  Proof.
    intros Hr Bh Bd Ut Us PF SX SR SH LL HF HN HX HT HD HD'. pose proof (rf_config _ _ _ _ _ _ _ RF) as Hcf.
    pose proof (reachable_wf cf Hcf _ Hr) as W.
    destruct (sample_derive h data ty svn flags w) as [r wr] eqn:E. destruct r as [[ph ch]|]; [left; eauto|right].
    unfold Samples.sample_derive in E. fold (derive_of h data ty svn flags) in E. set (d := derive_of h data ty svn flags) in *.
    assert (HW : command_wf cf (CmdDeriveContext d)).
    { cbn [command_wf d derive_of dc_handle dc_data dc_flags dc_tci_type dc_target_locality dc_svn]. destruct Bh, Bd.
      repeat split; try assumption; destruct PF as [->|[->| ->]]; reflexivity. }
    destruct (send (CmdDeriveContext d) w) as [r w2] eqn:ES.
    apply (send_spec cf pr chain issuer serial ski Hcf) in ES as (r1 & w1 & EX & Es & _ & Hr1 & Er); [|exact Hr|exact HW|exact Logic.I].
    assert (BB : forall k, In k [21; 22; 23; 24; 27; 30; 31] -> N.testbit (dc_flags d) k = false).
    { intros k Hk. unfold d, derive_of. cbn [dc_flags]. cbn [In] in Hk.
      repeat (destruct Hk as [<-|Hk]; [destruct PF as [->|[->| ->]]; reflexivity|]). destruct Hk. }
    assert (B28 : N.testbit (dc_flags d) 28 = N.testbit flags 28) by (unfold d, derive_of; destruct PF as [->|[->| ->]]; reflexivity).
    assert (B29 : N.testbit (dc_flags d) 29 = N.testbit flags 29) by (unfold d, derive_of; destruct PF as [->|[->| ->]]; reflexivity).
    assert (LG : legitimate cf po (CmdDeriveContext d) 0 (w_st (called cf (CmdDeriveContext d) w))).
    { cbn [legitimate called w_st]. rewrite (BB 24), (BB 23), (BB 27) by (cbn; tauto). split.
      { intros U. unfold unsupported_option in U. rewrite (BB 31), (BB 30), (BB 22), (BB 23), (BB 24), B29 in U by (cbn; tauto).
        destruct U as [[X _]|[[X _]|[[X1 X2]|[[_ X]|[[[X|X] _]|[X _]]]]]]; try discriminate; [|exact (X SX)].
        apply X2, SR. destruct PF as [->|[->| ->]]; [discriminate|discriminate|reflexivity]. }
      destruct (shape_at _ _ _ _ SH HN) as [HA HL].
      exists p, pc. split; [split; [exact HF|exact HA]|]. split.
      { intros U. unfold bad_request in U. rewrite (BB 24), (BB 23) in U by (cbn; tauto).
        destruct U as [[_ X]|[[X _]|[[X _]|(_ & i & c & X1 & (c' & X2 & X3 & X4) & X5)]]]; try discriminate; [congruence|].
        assert (c' = c) by (unfold at_slot in *; congruence). subst c'. eapply (HT i c); [eapply shape_slot; eassumption|exact X4|exact X5]. }
      split.
      { destruct (shape_has_free _ _ SH) as (c & X1 & X2); [|eauto]. rewrite (fo_size _ _ (wf_forest _ _ W)). exact LL. }
      rewrite B28, B29. destruct (N.testbit flags 28) eqn:F28.
      - assert (flags = bit 28) by (destruct PF as [->|[->| ->]]; [discriminate|reflexivity|discriminate]). intros j c X1 X2 _.
        destruct (HD H j c) as [Y1 Y2]; [eapply shape_slot; [exact SH|exact X1|unfold live; rewrite X2; discriminate]|exact X2|].
        subst flags. split; [exact Y1|]. split; [exact Y2|reflexivity].
      - assert (flags <> bit 28) by (intros X; subst flags; discriminate F28). intros j (c & X1 & X2 & _ & X4).
        destruct (HD' H j c) as [Y1 ->]; [eapply shape_slot; [exact SH|exact X1|unfold live; rewrite X2; discriminate]|exact X2|exact X4|].
        split; [exact Y1|reflexivity]. }
    destruct (called_room (CmdDeriveContext d) w Logic.I) as [RM1 RM2].
    destruct (C52_available cf R pr dig chain issuer serial ski (CmdDeriveContext d) 0 (called cf (CmdDeriveContext d) w) r1 w1 RF Hr HW Logic.I LG RM1 RM2 EX) as [[n ->]|(e & -> & RR)].
    { exfalso. destruct Er as (resp & -> & [_ AN] & _). destruct resp; try contradiction; try discriminate E.
      destruct AN as [X _]. rewrite (BB 23) in X by (cbn; tauto). discriminate X. }
    destruct e; cbn [ref_reason uses_key exports_cdi asks_request] in RR; try contradiction.
    - destruct RR as [(RR & HE)|(_ & [] & _)].
      destruct (C52_atomic cf R pr dig chain issuer serial ski (CmdDeriveContext d) 0 (called cf (CmdDeriveContext d) w) _ w1 RF Hr HW Logic.I RM1 EX) as [SA|(u & X & _)]; [|discriminate X].
      split; [|eauto]. intros ->. change (N.testbit (bit 28) 28) with true in B28. change (N.testbit (bit 28) 29) with false in B29.
      subst.
      destruct (C42_reference cf R pr dig chain issuer serial ski (CmdDeriveContext d) 0 (called cf (CmdDeriveContext d) w) _ w1 Hcf ltac:(pose proof (rf_artifacts _ _ _ _ _ _ _ RF) as (_ & X & _); lia) Hr HW EX) as [X|X].
      + unfold refusal in X. destruct X as [[X _]|X]; [discriminate X|]. rewrite (BB 24), (BB 23), B28, B29 in X by (cbn; tauto).
        destruct X as [[X _]|[[_ X]|(i & x & _ & _ & [[X _]|[(X & _)|[[X _]|[[X _]|[[(ce & X & _)|[X _]]|[X _]]]]]])]]; try discriminate X.
        unfold denied in X. repeat destruct X as [X|X]; try discriminate X; destruct X; discriminate.
      + unfold writer_refusal in X. destruct X as [X _]. rewrite (BB 23) in X by (cbn; tauto). discriminate X.
    - destruct RR as (_ & off & size & X & _). discriminate X.
    - rewrite (BB 23) in RR by (cbn; tauto). destruct RR as [(_ & X & _)|(_ & X & _)]; discriminate X.
  Qed.

  (** So is CertifyKey, for more reasons. *)
  Definition bad_secret : Prop :=
    exists salt ikm info k, pr_kdf pr (profile_alg (prof cf)) salt ikm info = Some k /\ pr_usable pr (profile_alg (prof cf)) k = false.
  Lemma certify_avail h (csr : bool) w i pc cts :
    let format := if csr then 1 else 0 in
    reachable cf (w_st w) -> byte_string 16 h -> first_slot (names (w_st w) h 0) i -> at_slot (w_st w) i pc -> c_x509 pc = true ->
    (if csr then supports (w_st w) CSR else supports (w_st w) X509) -> lineage (w_st w) i cts ->
    (exists c, sample_certify (prof cf) h format w = Some c) \/ bad_secret \/
    (h <> repeat 0 16 /\ exists w0 w', eight_draws cf pr dig w0 w' /\ w_st w' = w_st w) \/ (csr = true /\ List.length cts = max_handles cf).
  Proof.
    intros format Hr Bh HF HA HX HS HL. pose proof (rf_config _ _ _ _ _ _ _ RF) as Hcf.
    pose proof (reachable_wf cf Hcf _ Hr) as W.
    assert (Uf : u32 format) by (unfold format; destruct csr; reflexivity).
    destruct (certify_of_wf cf h format Bh Uf) as (HW & FP & Epf & PR).
    set (cmd := CmdCertifyKey (certify_of cf h format)) in *.
    assert (EC : forall k, k = {| ck_handle := h; ck_flags := 0; ck_format := format; ck_label := repeat 0 (profile_hash_size (prof cf)) |} ->
      CmdCertifyKey (match prof cf with P256Sha256 => CertifyP256 k | P384Sha384 => CertifyP384 k | Mldsa87 => CertifyMldsa87 k end) = cmd) by (intros k ->; reflexivity).
    unfold Samples.sample_certify. cbv zeta. rewrite EC by reflexivity.
    destruct (send cmd w) as [r w2] eqn:ES. cbn [fst].
    apply (send_spec cf pr chain issuer serial ski Hcf) in ES as (r1 & w1 & EX & Es & _ & Hr1 & Er); [|exact Hr|exact HW|exact FP].
    assert (LG : legitimate cf po cmd 0 (w_st (called cf cmd w))).
    { unfold cmd. cbn [legitimate called w_st]. exists h, i, pc. split; [exact PR|]. split; [split; [exact HF|exact HA]|].
      unfold certify_of, format. destruct (prof cf), csr; cbn [ck_format]; auto. }
    destruct (called_room cmd w Logic.I) as [RM1 RM2].
    destruct (C52_available cf R pr dig chain issuer serial ski cmd 0 (called cf cmd w) r1 w1 RF Hr HW FP LG RM1 RM2 EX) as [[n ->]|(e & -> & RR)].
    - left. destruct Er as (resp & -> & AN & EB). destruct resp as [| | | | |q hd x pk z cert| | | | |]; try (destruct AN as [_ AN]; contradiction).
      assert (PA : response_bytes_partial cf (RespCertifyKey q hd x pk z cert) = Ok (firstn (N.to_nat n) (w_out w1))).
      { eapply (partial_answer cf Hcf _ _ co po); [apply reference_signatures|exact W|exact HW| |apply wire_fits; exact FP|exact EX|exact AN|exact EB]. reflexivity. }
      destruct AN as (_ & Ep & [Lx _] & [Lp _] & Uz & [Lc _]). rewrite Epf in Ep. subst q.
      assert (Lb : (N.to_nat (max_cert_size cf) <= List.length (w_out w1))%nat).
      { rewrite <- EB. unfold response_bytes. cbn [response_fields hdr_fields List.concat app]. rewrite !app_length, Lc. lia. }
      cbn [response_bytes_partial] in PA. unfold prefix_or in PA. rewrite EB in PA.
      destruct (N.leb_spec (N.of_nat (List.length (w_out w1)) - max_cert_size cf + z) (N.of_nat (List.length (w_out w1)))) as [Lz|Lz]; [|discriminate PA].
      unfold response_cert, prefix_or. destruct (N.leb_spec z (N.of_nat (List.length cert))) as [Lz'|Lz']; [eauto|]. exfalso. rewrite Lc in Lz'. lia.
    - right. destruct e; cbn [ref_reason] in RR; try contradiction.
      + destruct RR as [(RR & HE)|(_ & AR & h' & j & cts' & P1 & P2 & P3 & P4)].
        * right. left. subst.
          destruct (C52_atomic cf R pr dig chain issuer serial ski cmd 0 (called cf cmd w) _ w1 RF Hr HW FP RM1 EX) as [SA|(u & X & _)]; [|discriminate X].
          split; [|eauto]. intros Eh.
          destruct (C42_reference cf R pr dig chain issuer serial ski cmd 0 (called cf cmd w) _ w1 Hcf ltac:(pose proof (rf_artifacts _ _ _ _ _ _ _ RF) as (_ & X & _); lia) Hr HW EX) as [X|X].
          -- unfold refusal in X. destruct X as [[X _]|X]; [discriminate X|]. unfold cmd in X. cbn [called w_st] in X.
             destruct X as (k & hh & Ek & Kk & X).
             assert (Ehh : ck_handle hh = h) by (clear -Ek Kk; unfold certify_of in Ek; destruct (prof cf), Kk as [-> | [-> | ->]]; try discriminate Ek; injection Ek as <-; reflexivity).
             destruct X as [[_ X]|(j & x & X1 & X2 & [[X _]|[[X _]|[(a & b & q & out & c' & p' & out' & _ & _ & _ & _ & _ & X)|[[X _]|[X _]]]]])]; try discriminate X.
             ++ unfold denied in X. repeat destruct X as [X|X]; try discriminate X; destruct X; discriminate.
             ++ rewrite Ehh in X1. assert (j = i) by (eapply first_slot_det; eauto). subst j. destruct X1 as [(x' & Y1 & _ & _ & Y4) _].
                assert (x' = x) by (unfold at_slot in *; congruence). subst x'. congruence.
          -- assert (CR : forall k A B u z, ~ cert_refusal cf co po A B k h 0 (w_st w) u z (InternalError HandleGenerationExhausted)).
             { intros k A B u z [[_ Y]|(j & cts' & _ & _ & [Y|[(ce & Y & _)|[(pe & Y & _)|(Y & _)]]])]; try discriminate Y.
               - unfold denied in Y. repeat destruct Y as [Y|Y]; try discriminate Y; destruct Y; discriminate.
               - destruct Y as [(? & Y & _)|[(? & Y & _)|(Y & _)]]; discriminate. }
             unfold writer_refusal, cmd, certify_of in X. cbv zeta in X. destruct (prof cf); destruct X as [[_ X]|[_ X]]; exact (CR _ _ _ _ _ X).
        * right. right. assert (h' = h) by (unfold cmd, certify_of in P1; clear -P1; destruct (prof cf); exact P1). subst h'.
          cbn [called w_st] in P2, P3. assert (j = i) by (eapply first_slot_det; eauto). subst j. rewrite (lineage_det _ _ _ _ P3 HL) in P4. split; [|exact P4].
          unfold cmd, certify_of, format in AR. destruct csr; [reflexivity|]. destruct (prof cf); destruct AR; reflexivity.
      + destruct RR as (_ & off & size & X & _). discriminate X.
      + destruct RR as [(_ & _ & X)|(_ & X & _)]; [left; exact X|destruct X].
  Qed.

  Notation zeros := (repeat 0 (tci_size cf)).
  (** Only the root is at slot 0. *)
  Lemma one_slot s x h : shape s [x] -> c_state x = Active -> c_locality x = 0 -> c_handle x = h -> first_slot (names s h 0) 0.
  Proof. intros SH A B D. eapply (shape_names _ _ _ 0%nat); [exact SH|reflexivity|exact A|exact B|exact D|]. intros j d Hj. lia. Qed.

  Lemma sample_avail critical csr seed : (2 <= max_handles cf)%nat ->
    sample_main cf R pr chain issuer serial ski critical csr seed = None -> bad_secret \/ (csr = true /\ max_handles cf = 2%nat).
  Proof.
    intros M H. pose proof (rf_config _ _ _ _ _ _ _ RF) as Hcf. unfold sample_main in H.
    destruct (start_succeeds cf pr chain issuer serial ski Hcf sample_support (if critical then bit 15 else 0) seed eq_refl) as [w0 E0].
    rewrite E0 in H. apply (start_shape cf pr chain issuer serial ski Hcf) in E0 as (R0 & S0 & F0 & H0); [|reflexivity|reflexivity].
    destruct (derive_avail (repeat 0 16) zeros (letters str_TEST) 0 (bit 28) w0 _ 0%nat _ R0 (zeros_ok 16) (zeros_ok _) eq_refl eq_refl (or_intror (or_introl eq_refl))
      ltac:(unfold supports; rewrite S0; reflexivity) ltac:(discriminate) H0 M (one_slot _ _ _ H0 eq_refl eq_refl eq_refl) eq_refl eq_refl) as [(ph & ch & w1 & E1)|[X _]].
    - intros j d Hj Hp. destruct j as [|j]; [|destruct j; discriminate Hj]. injection Hj as <-. discriminate Hp.
    - intros _ j d Hj _. destruct j as [|j]; [|destruct j; discriminate Hj]. injection Hj as <-. split; reflexivity.
    - intros X; destruct (X eq_refl).
    - change (repeat 0 handle_size) with (repeat 0 16) in H. rewrite E1 in H.
      destruct (grown cf pr chain issuer serial ski Hcf _ _ _ _ _ _ _ _ _ _ E1 H0 R0 (zeros_ok 16) (zeros_ok _) eq_refl eq_refl (or_intror (or_introl eq_refl)))
        as (R1 & S1 & F1 & _ & _ & p & pc & pc' & dg & e & r & N1 & L1 & A1 & _ & _ & HH & H1 & C1 & P1 & T1 & _ & _ & _ & Q1).
      destruct p as [|p]; [|destruct p; discriminate L1]. injection L1 as <-. cbn [upd app] in H1.
      change (N.testbit (bit 28) 28) with true in C1. change (N.testbit (bit 28) 29) with false in Q1. cbv iota in C1, Q1. subst ch.
      assert (FS : first_slot (names (w_st w1) (repeat 0 16) 0) 1%nat).
      { eapply shape_names; [exact H1|reflexivity|reflexivity|reflexivity|reflexivity|]. intros j d Hj Ej Aj. assert (j = 0%nat) by lia. subst j. cbn [nth_error] in Ej. congruence. }
      destruct (shape_at _ _ 1%nat _ H1 eq_refl) as [HA _].
      assert (LI : lineage (w_st w1) 1 [new_context (repeat 0 16) dg zeros (letters str_TEST) 0 0 Normal e r; pc']).
      { eapply (climbs_lineage cf Hcf _ _ R1 H1 [0%nat]). cbn [climbs nth_error]. split; [reflexivity|]. split; [reflexivity|]. split; [reflexivity|]. rewrite P1. reflexivity. }
      assert (HS : if csr then supports (w_st w1) CSR else supports (w_st w1) X509) by (unfold supports; rewrite S1, S0; destruct csr; reflexivity).
      destruct (certify_avail (repeat 0 16) csr w1 1 _ _ R1 (zeros_ok 16) FS HA eq_refl HS LI) as [[c E2]|[X|[[X _]|[X Y]]]].
      + rewrite E2 in H. discriminate H.
      + left. exact X.
      + destruct (X eq_refl).
      + right. split; [exact X|]. symmetry. exact Y.
    - destruct (X eq_refl).
  Qed.

  Lemma build_avail seed : prof cf = P384Sha384 -> varied pr -> (5 <= max_handles cf)%nat ->
    build_main cf R pr chain issuer serial ski seed = None -> bad_secret.
  Proof.
    intros EP V M H. pose proof (rf_config _ _ _ _ _ _ _ RF) as Hcf. unfold build_main in H.
    destruct (start_succeeds cf pr chain issuer serial ski Hcf build_support 0 seed eq_refl) as [w0 E0].
    rewrite E0 in H. apply (start_shape cf pr chain issuer serial ski Hcf) in E0 as (R0 & S0 & F0 & H0); [|reflexivity|reflexivity]. cbv zeta in H.
    change (repeat 0 handle_size) with (repeat 0 16) in H.
    destruct (derive_avail (repeat 0 16) zeros (letters str_FW01) 1 0 w0 _ 0%nat _ R0 (zeros_ok 16) (zeros_ok _) eq_refl eq_refl (or_introl eq_refl)
      ltac:(unfold supports; rewrite S0; reflexivity) ltac:(discriminate) H0 ltac:(cbn [List.length]; lia) (one_slot _ _ _ H0 eq_refl eq_refl eq_refl) eq_refl eq_refl)
      as [(ph1 & ch1 & w1 & E1)|(_ & x & y & X & Y)].
    { intros j d Hj Hp. destruct j as [|j]; [|destruct j; discriminate Hj]. injection Hj as <-. discriminate Hp. }
    { discriminate. }
    { intros _ j d Hj _ _. destruct j as [|j]; [|destruct j; discriminate Hj]. split; reflexivity. }
    2:{ exfalso. eapply few_handles; [exact V|exact H0| |exact Y|exact X]. cbn [List.length]. lia. }
    rewrite E1 in H.
    destruct (grown cf pr chain issuer serial ski Hcf _ _ _ _ _ _ _ _ _ _ E1 H0 R0 (zeros_ok 16) (zeros_ok _) eq_refl eq_refl (or_introl eq_refl)) as (R1 & S1 & F1 & _ & B1 & p & pc & rt & dg & e & r & N1 & L1 & A1 & _ & _ & _ & H1 & C1 & P1 & T1 & _ & _ & _ & Q1).
    destruct p as [|p]; [|destruct p; discriminate L1]. injection L1 as <-. cbn [upd app] in H1.
    change (N.testbit 0 28) with false in C1. change (N.testbit 0 29) with false in Q1. cbv iota in C1, Q1. cbn [auto_context c_type c_tci c_parent] in *.
    clear N1 A1.
    assert (FS1 : first_slot (names (w_st w1) ch1 0) 1%nat).
    { eapply shape_names; [exact H1|reflexivity|reflexivity|reflexivity|reflexivity|]. intros j d Hj Ej Aj. assert (j = 0%nat) by lia. subst j. cbn [nth_error] in Ej. congruence. }
    destruct (derive_avail ch1 zeros (letters str_B_A1) 2 (bit 29) w1 _ 1%nat _ R1 B1 (zeros_ok _) eq_refl eq_refl (or_intror (or_intror eq_refl))
      ltac:(unfold supports; rewrite S1, S0; reflexivity) ltac:(intros _; unfold supports; rewrite S1, S0; reflexivity) H1 ltac:(cbn [List.length]; lia) FS1 eq_refl eq_refl)
      as [(ph2 & ch2 & w2 & E2)|(_ & x & y & X & Y)].
    { intros j d Hj Hp. destruct j as [|[|j]]; [| |destruct j; discriminate Hj]; injection Hj as <-; [rewrite P1 in Hp; discriminate Hp|discriminate Hp]. }
    { discriminate. }
    { intros _ j d Hj Aj Zj. exfalso. destruct j as [|[|j]]; [| |destruct j; discriminate Hj]; injection Hj as <-; [congruence|]. destruct C1 as [C1 _]. exact (C1 Zj). }
    2:{ exfalso. eapply few_handles; [exact V|exact H1| |exact Y|exact X]. cbn [List.length]. lia. }
    rewrite E2 in H.
    destruct (grown cf pr chain issuer serial ski Hcf _ _ _ _ _ _ _ _ _ _ E2 H1 R1 B1 (zeros_ok _) eq_refl eq_refl (or_intror (or_intror eq_refl))) as (R2 & S2 & F2 & B2 & _ & p & pc & fw2 & dg2 & e2 & r2 & _ & L2 & A2 & _ & _ & _ & H2 & C2 & P2 & T2 & Lo2 & X2 & Hf2 & Q2).
    destruct p as [|p]; [injection L2 as <-; congruence|]. destruct p as [|p]; [|destruct p; discriminate L2]. injection L2 as <-.
    cbn [upd app] in H2.
    change (N.testbit (bit 29) 28) with false in C2. change (N.testbit (bit 29) 29) with true in Q2. cbv iota in C2, Q2. cbn [new_context c_type c_tci c_parent c_x509] in *.
    destruct Q2 as [St2 Re2]. clear A2.
    assert (Z2 : ph2 <> repeat 0 16).
    { destruct Re2 as [[X _]|[_ [X _]]]; [|exact X]. cbn [new_context c_handle] in X. destruct C1 as [C1 _]. exfalso. exact (C1 X). }
    assert (FS2 : first_slot (names (w_st w2) ph2 0) 1%nat).
    { eapply shape_names; [exact H2|reflexivity|exact St2|exact Lo2|exact Hf2|]. intros j d Hj Ej Aj. assert (j = 0%nat) by lia. subst j. cbn [nth_error] in Ej. congruence. }
    destruct (derive_avail ph2 zeros (letters str_B_B1) 2 (bit 29) w2 _ 1%nat _ R2 B2 (zeros_ok _) eq_refl eq_refl (or_intror (or_intror eq_refl))
      ltac:(unfold supports; rewrite S2, S1, S0; reflexivity) ltac:(intros _; unfold supports; rewrite S2, S1, S0; reflexivity) H2 ltac:(cbn [List.length]; lia) FS2 eq_refl X2)
      as [(ph3 & ch3 & w3 & E3)|(_ & x & y & X & Y)].
    { intros j d Hj Hp. destruct j as [|[|[|j]]]; [| | |destruct j; discriminate Hj]; injection Hj as <-; [rewrite P1 in Hp; discriminate Hp|rewrite P2 in Hp; discriminate Hp|discriminate]. }
    { discriminate. }
    { intros _ j d Hj Aj Zj. exfalso. destruct j as [|[|[|j]]]; [| | |destruct j; discriminate Hj]; injection Hj as <-; [congruence|congruence|]. destruct C2 as [C2 _]. exact (C2 Zj). }
    2:{ exfalso. eapply few_handles; [exact V|exact H2| |exact Y|exact X]. cbn [List.length]. lia. }
    rewrite E3 in H.
    destruct (grown cf pr chain issuer serial ski Hcf _ _ _ _ _ _ _ _ _ _ E3 H2 R2 B2 (zeros_ok _) eq_refl eq_refl (or_intror (or_intror eq_refl))) as (R3 & S3 & F3 & _ & B3 & p & pc & fw3 & dg3 & e3 & r3 & N3 & L3 & A3 & _ & Hh3 & _ & H3 & C3 & P3 & T3 & Lo3 & X3 & Hf3 & Q3).
    change (N.testbit (bit 29) 28) with false in C3. change (N.testbit (bit 29) 29) with true in Q3. cbv iota in C3, Q3.
    assert (p = 1%nat) by (eapply first_slot_det; [exact N3|exact FS2]).
    subst p. injection L3 as <-. cbn [upd app] in H3. destruct Q3 as [St3 Re3]. clear N3 A3.
    assert (Z3 : ph3 <> repeat 0 16) by (destruct Re3 as [[X _]|[_ [X _]]]; congruence).
    set (c2 := new_context ch2 dg2 zeros (letters str_B_A1) 2 1 Normal e2 r2) in *.
    set (c3 := new_context ch3 dg3 zeros (letters str_B_B1) 2 1 (c_type fw2) e3 r3) in *.
    assert (N32 : ch2 <> ch3) by (apply (fresh_in _ _ _ 2%nat c2 H2 C3); reflexivity).
    assert (FS3 : exists p pc, first_slot (names (w_st w3) ch3 0) p /\ nth_error [rt; fw3; c2; c3] p = Some pc /\ c_x509 pc = true /\ (p = 1%nat \/ p = 3%nat)).
    { destruct (list_eq_dec N.eq_dec ph3 ch3) as [EQ|NE].
      - exists 1%nat, fw3. split; [|split; [reflexivity|split; [congruence|auto]]].
        eapply shape_names; [exact H3|reflexivity|exact St3|exact Lo3|congruence|]. intros j d Hj Ej Aj. assert (j = 0%nat) by lia. subst j. cbn [nth_error] in Ej. congruence.
      - exists 3%nat, c3. split; [|split; [reflexivity|split; [reflexivity|auto]]].
        eapply shape_names; [exact H3|reflexivity|reflexivity|reflexivity|reflexivity|]. intros j d Hj Ej Aj.
        destruct j as [|[|[|j]]]; [| | |lia]; injection Ej as <-; [congruence|congruence|exact N32]. }
    destruct FS3 as (p3 & pc3 & FS3 & L3 & X3' & P3').
    destruct (derive_avail ch3 zeros (letters str_LEAF) 3 0 w3 _ p3 pc3 R3 B3 (zeros_ok _) eq_refl eq_refl (or_introl eq_refl)
      ltac:(unfold supports; rewrite S3, S2, S1, S0; reflexivity) ltac:(discriminate) H3 ltac:(cbn [List.length]; lia) FS3 L3 X3')
      as [(ph4 & ch4 & w4 & E4)|(_ & x & y & X & Y)].
    { intros j d Hj Hp. destruct j as [|[|[|[|j]]]]; [| | | |destruct j; discriminate Hj]; injection Hj as <-.
      - rewrite P1 in Hp. destruct P3' as [-> | ->]; discriminate Hp.
      - rewrite P3, P2 in Hp. destruct P3' as [-> | ->]; discriminate Hp.
      - discriminate.
      - discriminate. }
    { discriminate. }
    { intros _ j d Hj Aj Zj. exfalso. destruct j as [|[|[|[|j]]]]; [| | | |destruct j; discriminate Hj]; injection Hj as <-; [congruence|congruence| |].
      - destruct C2 as [C2 _]. exact (C2 Zj).
      - destruct C3 as [C3 _]. exact (C3 Zj). }
    2:{ exfalso. eapply few_handles; [exact V|exact H3| |exact Y|exact X]. cbn [List.length]. lia. }
    rewrite E4 in H.
    destruct (grown cf pr chain issuer serial ski Hcf _ _ _ _ _ _ _ _ _ _ E4 H3 R3 B3 (zeros_ok _) eq_refl eq_refl (or_introl eq_refl)) as (R4 & S4 & F4 & _ & B4 & p & pc & pc4 & dg4 & e4 & r4 & N4 & L4 & A4 & _ & Hh4 & _ & H4 & C4 & P4 & T4 & _ & _ & _ & Q4).
    change (N.testbit 0 28) with false in C4. change (N.testbit 0 29) with false in Q4. cbv iota in C4, Q4.
    assert (p = p3) by (eapply first_slot_det; [exact N4|exact FS3]). subst p. assert (pc = pc3) by congruence. subst pc.
    set (c4 := new_context ch4 dg4 zeros (letters str_LEAF) 3 p3 (c_type pc3) e4 r4) in *.
    assert (FS : first_slot (names (w_st w4) ch4 0) 4%nat).
    { eapply shape_names; [exact H4| | | | |].
      - rewrite nth_error_app2 by (rewrite upd_len; cbn [List.length]; lia). rewrite upd_len. reflexivity.
      - reflexivity.
      - reflexivity.
      - reflexivity.
      - intros j d Hj Ej Aj. rewrite nth_error_app1 in Ej by (rewrite upd_len; exact Hj). rewrite nth_upd in Ej. destruct (Nat.eqb j p3); [|eapply (fresh_in _ _ _ _ _ H3 C4); exact Ej].
        destruct (nth_error _ p3) in Ej; [|discriminate Ej]. cbn [option_map] in Ej. congruence. }
    assert (HA : at_slot (w_st w4) 4 c4).
    { eapply (shape_at _ _ 4%nat _ H4). rewrite nth_error_app2 by (rewrite upd_len; cbn [List.length]; lia). rewrite upd_len. reflexivity. }
    assert (LI : exists cts, lineage (w_st w4) 4 cts).
    { destruct P3' as [-> | ->]; injection L3 as <-; cbn [upd app] in H4.
      - eexists. eapply (climbs_lineage cf Hcf _ _ R4 H4 [1%nat; 0%nat] [_; _; _]). cbn [climbs nth_error]. split; [reflexivity|]. split; [reflexivity|]. split; [reflexivity|]. split; [rewrite P4, P3, P2; reflexivity|]. split; [reflexivity|]. rewrite P1. reflexivity.
      - eexists. eapply (climbs_lineage cf Hcf _ _ R4 H4 [3; 1; 0]%nat [_; _; _; _]). cbn [climbs nth_error]. split; [reflexivity|]. split; [reflexivity|]. split; [reflexivity|]. split; [rewrite P4; reflexivity|]. split; [reflexivity|]. split; [rewrite P3, P2; reflexivity|]. split; [reflexivity|]. rewrite P1. reflexivity. }
    destruct LI as [cts LI].
    assert (HS : supports (w_st w4) X509) by (unfold supports; rewrite S4, S3, S2, S1, S0; reflexivity).
    destruct (certify_avail ch4 false w4 4 c4 cts R4 B4 FS HA eq_refl HS LI) as [[c E5]|[X|[(_ & x & y & X & Y)|[X _]]]].
    - cbv zeta in E5. rewrite EP in E5. rewrite E5 in H. discriminate H.
    - exact X.
    - exfalso. eapply few_handles; [exact V|exact H4| |exact Y|exact X]. rewrite app_length, upd_len. cbn [List.length]. lia.
    - discriminate X.
  Qed.
End Avail.
