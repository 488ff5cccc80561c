(** SimulatorProofs.v -- what the simulator and the fuzz target do with the bytes they are
    given. *)
From Verif Require Import Base Errors Types StateOps Env Wire Instance Commands RespBuf Response X509 X509Cert RustCrypto DefaultPlatform Simulator
  Lib Spec Exec Effects Forest DestroyProofs History Contract Steps Reach Denials CommandSpecs Responses WireSpec Codec Execute
  X509Spec X509Cmd X509Facts X509Fit Fits Buffers X509Sane RustProofs PlatformProofs Props_Reference Props_Size.
Local Open Scope N_scope.

Lemma slice_mid (a x b : bytes) : slice (a ++ x ++ b) (length a) (length x) = x.
Proof.
  unfold slice. rewrite skipn_app, skipn_all, Nat.sub_diag. cbn [app skipn]. rewrite firstn_app, Nat.sub_diag, firstn_all.
  cbn [firstn]. apply app_nil_r.
Qed.

Lemma slice_at (a x b : bytes) o n : length a = o -> length x = n -> slice (a ++ x ++ b) o n = x.
Proof. intros <- <-. apply slice_mid. Qed.

(** The part of a response that is sent is the part that the command wrote. *)
Section Partial.
  Variable cf : config.
  Hypothesis Hcf : config_ok cf.
  Variables C P : Type.
  Variable co : crypto_ops C.
  Variable po : platform_ops P.
  Hypothesis Hsigs : signatures_fit cf co.
  Notation exec := (exec_command cf C P co po (x509_gen cf C P co po)).

  Lemma small_area : max_cert_size cf < 2 ^ 20.
  Proof.
    destruct Hcf as ((_ & H) & _). unfold max_cert_size.
    assert (Q : forall x, 4 * (x / 4) <= x) by (intros x; apply N.mul_div_le; lia).
    destruct (feat_mldsa cf); [|destruct (feat_p256 cf)]; eapply N.le_lt_trans; try apply Q; lia.
  Qed.

  Lemma partial_answer cmd loc w n w' resp :
    wf cf (w_st w) -> command_wf cf cmd -> u32 loc -> Fits.for_profile cf cmd ->
    exec cmd loc (mkWorld (w_st w) (w_c w) (w_p w) (repeat 0 (N.to_nat (wire_size cf cmd)))) = (Ok n, w') ->
    answers cf cmd resp -> response_bytes resp = w_out w' ->
    response_bytes_partial cf resp = Ok (firstn (N.to_nat n) (w_out w')).
  Proof.
    set (w0 := mkWorld _ _ _ _). intros W Wc Wl Wp H A E.
    assert (W0 : wf cf (w_st w0)) by exact W.
    pose proof (proj2 (command_reported cf Hcf C P co po (x509_gen cf C P co po) _ _ _ _ _ W0 H)) as R.
    assert (W' : wf cf (w_st w')) by exact (command_keeps_wf cf Hcf co po cmd loc w0 _ _ W0 Wc Wl H).
    assert (L : length (w_out w') = N.to_nat (wire_size cf cmd)).
    { pose proof (proj1 (command_fine cf Hcf C P co po _ (x509_sane cf co po) _ _ _ _ _ W0 Wc H)) as F.
      cbn [w0 w_out] in F. rewrite repeat_length in F. exact F. }
    assert (M : (N.to_nat n <= length (w_out w'))%nat)
      by exact (proj1 (command_measured cf co po cmd loc _ _ _ H (wf_handles16 cf _ W'))).
    destruct (cert_area resp) as [[z cert]|] eqn:EA.
    - assert (Q : asks_certificate cmd \/ asks_request cmd).
      { destruct A as [_ A]. destruct cmd as [|f|d|c|c|h f|h|o zz|u], resp; try destruct A; try discriminate.
        - left. split; [assumption|].
          assert (HB : exists pc, derive_bad_args pc (dc_flags d) = false).
          { apply exec_derive_inv in H as [(_ & N & _)|[(s' & bs & Hd & H)|[(s' & bs & Hd & H)|(s' & w2 & cr & ph & Hd & H)]]].
            - exfalso; eapply N; reflexivity.
            - destruct Hd as (i & c0 & c' & dg & (_ & _ & _ & Hb) & _). eauto.
            - destruct Hd as (i & c0 & c' & x & y & dg & (_ & _ & _ & Hb) & _). eauto.
            - destruct Hd as (i & c0 & c' & x & y & dg & (_ & _ & _ & Hb) & _). eauto. }
          destruct HB as (pc & Hb). unfold derive_bad_args, df_export_cdi, df_recursive in Hb. rewrite !contains_bit in Hb.
          rewrite H0 in Hb. destruct (N.testbit (dc_flags d) 24); [|reflexivity].
          rewrite !orb_false_iff in Hb. cbn in Hb. destruct Hb as ((((((((_ & _) & Hb) & _) & _) & _) & _) & _) & _). discriminate.
        - destruct c as [c|c|c]; cbn [asks_certificate asks_request]; destruct (N.eq_dec (ck_format c) 0); auto. }
      assert (S : exists k, n = N.of_nat (output_start cmd) + k /\ slice (w_out w') (output_start cmd - 4) 4 = le_bytes 4 k).
      { destruct Q as [Q|Q].
        - assert (HP : exists h, presents cmd h) by (destruct cmd as [|f|d|[c|c|c]|c|h f|h|o zz|u]; try (exfalso; exact Q); eexists; reflexivity).
          destruct HP as [h HP].
          destruct (certificate_command cf Hcf co po cmd loc w0 n w' h W0 Wc H Q HP)
            as (k & a & cr & v0 & v1 & _ & _ & _ & _ & _ & _ & _ & _ & _ & _ & Hn & _ & Hz & _). eauto.
        - assert (HP : exists h, presents cmd h) by (destruct cmd as [|f|d|[c|c|c]|c|h f|h|o zz|u]; try (exfalso; exact Q); eexists; reflexivity).
          destruct HP as [h HP].
          destruct (request_command cf co po cmd loc w0 n w' h W0 Wc H Q HP)
            as (a & cr & v1 & _ & _ & _ & _ & _ & _ & _ & _ & _ & Hn & _ & Hz & _). eauto. }
      destruct S as (k & Hn & Hz).
      assert (B : wire_size cf cmd = N.of_nat (output_start cmd) + max_cert_size cf).
      { destruct cmd as [|f|d|[c|c|c]|c|h f|h|o zz|u]; destruct Q as [Q|Q]; try (exfalso; exact Q); cbn [wire_size output_start certify_profile]; try lia.
        rewrite (proj1 Q). lia. }
      pose proof small_area as SA.
      assert (Hk : k <= max_cert_size cf) by lia.
      assert (Ez : z = k).
      { apply (le_bytes_inj 4); [| |rewrite <- Hz].
        - destruct A as [_ A]. destruct cmd, resp; try destruct A; try discriminate; injection EA as <- <-; cbn; unfold u32 in *; tauto.
        - cbn; lia.
        - rewrite <- E. symmetry. destruct A as [_ A]. unfold response_bytes.
          destruct cmd as [|f|d|c|c|h f|h|o zz|u], resp; try destruct A; try discriminate; injection EA as -> ->;
            cbn [response_fields hdr_fields concat app].
          + destruct H1 as ([L1 _] & [L2 _] & [L3 _] & _). 
            match goal with |- slice (?a ++ ?b ++ ?c ++ ?x ++ ?y ++ ?v ++ ?q ++ ?r) _ _ = _ =>
              replace (a ++ b ++ c ++ x ++ y ++ v ++ q ++ r) with ((a ++ b ++ c ++ x ++ y ++ v) ++ q ++ r) by (rewrite <- ?app_assoc; reflexivity) end.
            apply slice_at; [rewrite !app_length, !length_le_bytes; cbn [output_start]; lia|apply length_le_bytes].
          + destruct H1 as ([L1 _] & [L2 _] & _). subst p.
            match goal with |- slice (?a ++ ?b ++ ?c ++ ?x ++ ?y ++ ?q ++ ?r) _ _ = _ =>
              replace (a ++ b ++ c ++ x ++ y ++ q ++ r) with ((a ++ b ++ c ++ x ++ y) ++ q ++ r) by (rewrite <- ?app_assoc; reflexivity) end.
            apply slice_at; [rewrite !app_length, !length_le_bytes, L1, L2; destruct c; cbn [output_start certify_profile]; lia|apply length_le_bytes]. }
      subst z. destruct (partial_ok cf cmd resp k cert A EA Hk) as (b & Hb & (un & Hun & Lu) & _). rewrite Hb. f_equal.
      rewrite <- E, Hun. rewrite firstn_app.
      assert (Lb : length b = N.to_nat n) by (rewrite <- E, Hun, app_length in L; lia).
      rewrite <- Lb, firstn_all, Nat.sub_diag. symmetry. apply app_nil_r.
    - rewrite (partial_plain cf resp EA), E. f_equal. symmetry. apply firstn_all2.
      rewrite L. destruct cmd as [|f|d|c|c|h f|h|o zz|u]; cbn [reported] in R; cbn [wire_size].
      + lia.
      + lia.
      + destruct R as (p & pc & _ & _ & R). destruct A as [_ A]. destruct resp; try destruct A; try discriminate.
        rewrite H0 in *. destruct (N.testbit (dc_flags d) 24); lia.
      + destruct A as [_ A]. destruct resp; try destruct A; discriminate.
      + rewrite (sign_fits cf co po Hsigs c loc w0 n w' W0 Wp H), size_wire. cbn [wire_size]. lia.
      + lia.
      + lia.
      + lia.
      + lia.
  Qed.
End Partial.

(** ** The simulator *)

(** What a client that sends a well-formed message asks for: a locality, and a request
    for a command. *)
Definition brings (cf : config) (cn : connection) (loc : N) (cmd : command) : Prop :=
  exists msg b, cn_read cn = Some msg /\ all_bytes msg /\ firstn (N.to_nat 4096) msg = le_bytes 4 loc ++ b /\ u32 loc /\ request_of cf cmd b.

(** The bytes that answer a command that ended with [r] and response buffer [out]. *)
Definition answer_bytes (cf : config) (r : result N) (out : bytes) : bytes :=
  match r with
  | Ok n => firstn (N.to_nat n) out
  | Err e => le_bytes 4 0x44504552 ++ le_bytes 4 (get_error_code e) ++ le_bytes 4 (own_profile cf)
  | Crash _ => []
  end.

Section Brings.
  Variable cf : config.
  Lemma sim_buf_4 : (4 <= sim_buf)%nat.
  Proof. unfold sim_buf. lia. Qed.
  Opaque sim_buf.

  Lemma brings_split cn got : cn_read cn = Some got -> all_bytes got ->
    let buf := firstn sim_buf (got ++ repeat 0 sim_buf) in let n := Nat.min (length got) sim_buf in
    (n < 4)%nat -> forall loc cmd, ~ brings cf cn loc cmd.
  Proof.
    intros E B buf n L loc cmd (msg & b & E2 & _ & E3 & _). rewrite E in E2. injection E2 as <-.
    change (N.to_nat 4096) with sim_buf in E3. apply (f_equal (@length N)) in E3. rewrite firstn_length, app_length, length_le_bytes in E3. unfold n in L. lia.
  Qed.

  Lemma brings_command cn got loc cmd : cn_read cn = Some got -> all_bytes got -> (4 <= Nat.min (length got) sim_buf)%nat ->
    let buf := firstn sim_buf (got ++ repeat 0 sim_buf) in let n := Nat.min (length got) sim_buf in
    brings cf cn loc cmd <->
    loc = le_val (firstn 4 buf) /\ deserialize_command cf (firstn (n - 4) (skipn 4 buf)) = Ok cmd.
  Proof.
    intros E B L buf n. pose proof sim_buf_4 as S4. unfold brings. change (N.to_nat 4096) with sim_buf.
    assert (EB : firstn n buf = firstn sim_buf got).
    { unfold buf, n. rewrite firstn_firstn. rewrite firstn_app.
      replace (Nat.min (Nat.min (length got) sim_buf) sim_buf - length got)%nat with 0%nat by lia.
      cbn [firstn]. rewrite app_nil_r. destruct (Nat.le_ge_cases (length got) sim_buf) as [Q|Q].
      - rewrite !firstn_all2 by lia. reflexivity.
      - f_equal. lia. }
    assert (ES : firstn sim_buf got = firstn 4 buf ++ firstn (n - 4) (skipn 4 buf)).
    { rewrite <- EB. rewrite <- (firstn_skipn 4 (firstn n buf)) at 1. f_equal.
      - rewrite firstn_firstn. f_equal. unfold n. lia.
      - rewrite skipn_firstn_comm. reflexivity. }
    assert (L4 : length (firstn 4 buf) = 4%nat).
    { rewrite firstn_length. unfold buf. rewrite firstn_length, app_length, repeat_length. lia. }
    assert (BB : all_bytes (firstn sim_buf got)) by (apply all_bytes_firstn; exact B).
    rewrite ES in BB. apply all_bytes_app in BB as [B4 Bc].
    split.
    - intros (msg & b & E2 & _ & E3 & Ul & Hr). rewrite E in E2. injection E2 as <-. rewrite ES in E3.
      apply app_inj_length in E3 as [E3 <-]; [|rewrite L4, length_le_bytes; reflexivity].
      rewrite E3, le_val_le_bytes by exact Ul. split; [reflexivity|]. apply deserialize_request; assumption.
    - intros [-> Hd]. exists got, (firstn (n - 4) (skipn 4 buf)). split; [exact E|]. split; [exact B|].
      assert (Hb : le_val (firstn 4 buf) < 256 ^ N.of_nat 4) by (rewrite <- L4 at 2; apply le_val_bound; exact B4).
      split; [|split; [exact Hb|apply deserialize_ok; assumption]].
      rewrite ES at 1. f_equal. rewrite <- L4 at 2. symmetry. apply le_bytes_le_val. exact B4.
  Qed.

  Lemma brings_dec cn : (forall msg, cn_read cn = Some msg -> all_bytes msg) ->
    (exists loc cmd, brings cf cn loc cmd) \/ forall loc cmd, ~ brings cf cn loc cmd.
  Proof.
    intros Hb. destruct (cn_read cn) as [msg|] eqn:E; [|right; intros loc cmd (m & x & Em & _); congruence].
    destruct (Nat.lt_ge_cases (Nat.min (length msg) sim_buf) 4) as [L|L].
    - right. exact (brings_split cn msg E (Hb msg eq_refl) L).
    - pose proof (fun loc cmd => brings_command cn msg loc cmd E (Hb msg eq_refl) L) as BC. cbv zeta in BC.
      destruct (deserialize_command cf (firstn (Nat.min (length msg) sim_buf - 4) (skipn 4 (firstn sim_buf (msg ++ repeat 0 sim_buf))))) as [c|e|k] eqn:D.
      + left. eexists; exists c. apply BC. split; reflexivity.
      + right. intros loc cmd X. apply BC in X as [_ X]. discriminate.
      + right. intros loc cmd X. apply BC in X as [_ X]. discriminate.
  Qed.
End Brings.

Section Requests.
  Variable cf : config.
  Hypothesis Hcf : config_ok cf.
  Variable R : Type.
  Variable pr : primitives R.
  Variables chain issuer serial ski : bytes.
  Hypothesis Hchain : chain_fits chain.
  Hypothesis Hfuel : (length chain < 2048 * (fuel cf - 1))%nat.
  Notation ops := (sim_ops cf R pr).
  Notation plat := (sim_platform chain issuer serial ski).
  Notation exec := (exec_command cf (rust_c R) unit ops plat (x509_gen cf (rust_c R) unit ops plat)).
  Notation handle := (handle_request cf R pr chain issuer serial ski).

  Theorem handle_spec cn w r w' :
    reachable cf (w_st w) -> (forall msg, cn_read cn = Some msg -> all_bytes msg) -> handle cn w = (r, w') ->
    (forall loc cmd, brings cf cn loc cmd ->
       exists r0 w1, exec cmd loc (mkWorld (w_st w) (w_c w) (w_p w) (repeat 0 (N.to_nat (wire_size cf cmd)))) = (r0, w1) /\
         (forall k, r0 <> Crash k) /\
         w' = mkWorld (w_st w1) (w_c w1) (w_p w1) (w_out w) /\
         r = if cn_open cn then Answered (answer_bytes cf r0 (w_out w1)) else Panicked) /\
    ((forall loc cmd, ~ brings cf cn loc cmd) -> r = Panicked /\ w' = w).
  Proof.
    intros Hr Hb H. pose proof (reachable_wf cf Hcf _ Hr) as W. unfold handle_request in H.
    destruct (cn_read cn) as [got|] eqn:E.
    2:{ injection H as <- <-. split; [intros loc cmd (msg & b & E2 & _); congruence|auto]. }
    specialize (Hb got eq_refl). cbv zeta in H.
    destruct (Nat.ltb_spec (Nat.min (length got) sim_buf) 4) as [L|L].
    { injection H as <- <-. split; [|auto]. intros loc cmd Hbr. exfalso. exact (brings_split cf cn got E Hb L loc cmd Hbr). }
    pose proof (fun loc cmd => brings_command cf cn got loc cmd E Hb L) as BC. cbv zeta in BC.
    set (loc0 := le_val _) in *. set (b := firstn (Nat.min _ _ - 4) _) in *.
    assert (Ul : u32 loc0).
    { unfold u32, loc0. eapply N.lt_le_trans; [apply le_val_bound, all_bytes_firstn, all_bytes_firstn, all_bytes_app; split; [exact Hb|apply all_bytes_zero]|].
      change (2 ^ 32) with (256 ^ 4). apply N.pow_le_mono_r; [lia|]. rewrite firstn_length. lia. }
    assert (Bb : all_bytes b).
    { unfold b. apply all_bytes_firstn, all_bytes_skipn, all_bytes_firstn, all_bytes_app. split; [exact Hb|apply all_bytes_zero]. }
    destruct (execute_serialized_command _ _ _ _ _ _ _ _ _) as [r1 w2] eqn:X.
    pose proof (serialized_spec cf _ _ _ _ _ _ _ _ _ _ W X) as S.
    assert (NC : forall k, r1 <> Crash k).
    { clear S H. destruct w as [s c p o]. apply (C21_reference cf R pr (profile_alg (prof cf)) (backend_digest (prof cf)) chain issuer serial ski loc0 b s c o r1 w2 Hcf Hchain Hfuel Hr Bb).
      destruct p. unfold sim_ops, sim_platform in X. exact X. }
    destruct (deserialize_command cf b) as [cmd|e|k] eqn:D.
    - split.
      2:{ intros N. exfalso. eapply (N loc0 cmd). apply BC. auto. }
      intros loc cmd' Hbr. apply BC in Hbr as [-> Q]. injection Q as <-.
      pose proof (deserialize_ok cf _ _ Bb D) as (Wc & Wp & _).
      destruct S as (r2 & X2 & S). pose proof (execute_spec cf Hcf _ _ _ _ _ (x509_sane cf ops plat) _ _ _ _ _ W Wc X2) as (r0 & w1 & X0 & -> & X3).
      exists r0, w1. split; [exact X0|]. destruct r0 as [n|e|k].
      + destruct X3 as (resp & -> & A & EB & _). subst r1.
        assert (Fp : Fits.for_profile cf cmd).
        { destruct cmd as [|f|d|c|[c|c|c|c]|h f|h|o zz|u]; cbn in Wp |- *; auto; symmetry; tauto. }
        rewrite (partial_answer cf Hcf _ _ ops plat (reference_signatures pr _ cf) cmd loc0 w n w1 resp W Wc Ul Fp X0 A EB) in H.
        split; [discriminate|]. destruct (cn_open cn); injection H as <- <-; split; reflexivity.
      + subst r2 r1. split; [discriminate|]. cbn [response_bytes_partial] in H.
        destruct (cn_open cn); injection H as <- <-; split; reflexivity.
      + subst r2 r1. exfalso. exact (NC k eq_refl).
    - destruct S as [-> ->]. injection H as <- <-. split; [|auto]. intros loc cmd Hbr. apply BC in Hbr as [_ Q]. discriminate.
    - destruct S as [-> ->]. exfalso. exact (NC k eq_refl).
  Qed.
End Requests.
