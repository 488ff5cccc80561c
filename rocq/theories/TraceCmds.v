(** TraceCmds.v -- the calls of the nine commands. *)
From Verif Require Import Base Errors Types StateOps Env Wire Instance Commands X509 X509Cert Lib Spec Exec Steps X509Cmd Trace.
Open Scope N_scope.
Open Scope dpe_scope.

Section Cmds.
  Variable cf : config.
  Context {C P : Type}.
  Variable co : crypto_ops C.
  Variable po : platform_ops P.
  Notation cg := (x509_gen cf C P co po).

  Section May.
    Variable may : event -> Prop.
    Lemma t_run_cert k a off : may_cert may k a ->
      traced co may stage0 (run_cert C P cg k a off) (fun x s => exists d, s = mkStage ONone (Some d) (kind_csr k) true (Some (cr_pubkey x))).
    Proof. intros Hm w r w' E. rewrite run_create in E. exact (t_create cf co po may k a off Hm _ _ _ E). Qed.
    Lemma t_tmp s f c : may_rand may -> sg_open s = ONone -> traced co may s (derive_tmp_parent C P co f c) (stays s).
    Proof.
      intros Hr O. unfold derive_tmp_parent. destruct (df_retain_parent f); [|apply traced_ret; reflexivity].
      destruct (negb _); [|apply traced_ret; reflexivity]. eapply traced_bind; [apply t_gen; auto|]. intros ? ? ->. apply traced_ret. reflexivity.
    Qed.
  End May.

  Ltac tstep := first
    [ eapply traced_bind; [apply traced_get|intros ? ? ->]
    | eapply traced_bind; [apply traced_put|intros ? ? ->]
    | eapply traced_bind; [apply traced_write|intros ? ? ->]
    | eapply traced_bind; [apply traced_platform|intros ? ? ->]
    | eapply traced_bind; [apply traced_get_ctx; reflexivity|intros ? ? ->]
    | eapply traced_bind; [apply traced_index|intros ? ? ->]
    | eapply traced_bind; [apply traced_assign|intros ? ? ->]
    | eapply traced_bind; [apply traced_set; reflexivity|intros ? ? ->]
    | eapply traced_bind; [apply traced_lift'; first [apply calm_pos|apply calm_and_idx|apply calm_destroy|apply calm_unique|apply calm_inputs
         |apply calm_add_child|apply calm_ok_or; reflexivity]|intros ? ? [? ->]]
    | apply traced_fail; reflexivity ].

  Lemma t_respond may s b (Q : N -> stage -> Prop) : (forall n, Q n s) -> traced co may s (respond C P b) Q.
  Proof. intros H. eapply traced_weaken; [apply traced_respond|]. intros n ? ->. apply H. Qed.

  Theorem command_traced cmd loc : traced co (permitted cf cmd) stage0 (exec_command cf C P co po cg cmd loc) (fun _ s => complete cmd s).
  Proof.
    destruct cmd as [|flags|c|c|c|h flags|h|off size|c]; cbn [exec_command].
    - unfold exec_get_profile, get_profile. tstep. eapply (traced_bind _ _ _ _ _ (stays stage0)).
      { tstep. tstep. apply traced_ret. reflexivity. }
      intros ? ? ->. apply t_respond. intros. repeat split; cbn; intros; try discriminate; contradiction.
    - unfold exec_init. tstep. cbv zeta. destruct (_ || _)%bool; [tstep|]. destruct (negb _) eqn:X; [tstep|]. tstep.
      eapply (traced_bind _ _ _ _ _ (stays stage0)).
      { destruct (if_default flags) eqn:D; [tstep; apply traced_ret; reflexivity|].
        eapply traced_bind; [apply t_gen; [|reflexivity]|intros ? ? ->; apply traced_ret; reflexivity].
        intros r. cbn [permitted]. rewrite <- contains_bit. change (if_simulation flags = true). destruct (if_simulation flags); [reflexivity|discriminate]. }
      intros [ty hh] ? ->. tstep. tstep. apply t_respond. intros. repeat split; cbn; intros; try discriminate; contradiction.
    - assert (Hh : may_hash (permitted cf (CmdDeriveContext c))) by (intros []; cbn; intros []; exact Logic.I).
      assert (Hr : may_rand (permitted cf (CmdDeriveContext c))) by (intros r; exact Logic.I).
      assert (NC : N.testbit (dc_flags c) 23 = false -> forall s, sg_open s = ONone -> sg_signed s = false -> sg_alias s = false -> complete (CmdDeriveContext c) s).
      { intros X s S1 S2 S3. split; [exact S1|]. rewrite S2, S3, X. repeat split; intros; try discriminate; contradiction. }
      unfold exec_derive. cbv zeta. tstep. destruct (derive_unsupported _ _); [tstep|].
      eapply traced_bind; [apply traced_lift', calm_and_idx|]. intros [pc parent] ? [_ ->]. cbv beta iota.
      destruct (derive_bad_args pc (dc_flags c)) eqn:Bad; [tstep|].
      destruct (df_recursive (dc_flags c)) eqn:R.
      { assert (X : N.testbit (dc_flags c) 23 = false).
        { rewrite <- contains_bit. change (df_export_cdi (dc_flags c) = false). unfold derive_bad_args in Bad. rewrite R in Bad.
          destruct (df_export_cdi (dc_flags c)); [exfalso|reflexivity].
          destruct (df_create_cert (dc_flags c)); cbn in Bad; rewrite ?orb_true_r in Bad; cbn in Bad; discriminate. }
        unfold derive_recursive. tstep. destruct (negb _); [tstep|]. eapply traced_bind; [apply t_add; auto|]. intros tmp ? [d ->].
        eapply traced_bind; [apply t_roll; auto|]. intros ? ? ->. tstep. apply t_respond. intros. apply NC; auto. }
      tstep. destruct (negb _); [tstep|]. tstep. eapply traced_bind; [apply t_tmp; auto|]. intros tp ? ->.
      destruct (df_create_cert (dc_flags c) && df_export_cdi (dc_flags c))%bool eqn:X.
      + apply andb_true_iff in X as [_ X]. assert (X' : N.testbit (dc_flags c) 23 = true) by (rewrite <- contains_bit; exact X).
        unfold derive_export. tstep. tstep. tstep. eapply traced_bind; [apply t_run_cert|].
        { split; [exact Hh|]. cbn. repeat split; auto; discriminate. }
        cbv beta. intros x ? [d ->].
        match goal with |- traced _ _ ?s _ _ => set (s1 := s) end.
        eapply (traced_bind _ _ _ _ _ (stays s1)).
        { destruct (negb _); [|apply traced_ret; reflexivity]. tstep. apply traced_ret. reflexivity. }
        intros pc2 ? ->. eapply (traced_bind _ _ _ _ _ (stays s1)).
        { destruct (negb pc2); [tstep; tstep; apply traced_put|apply traced_set; reflexivity]. }
        intros ? ? ->. tstep. tstep. apply traced_ret. subst s1. split; [reflexivity|]. cbn. rewrite X'. repeat split; intros; try discriminate; contradiction.
      + assert (X' : N.testbit (dc_flags c) 23 = false).
        { rewrite <- contains_bit. change (df_export_cdi (dc_flags c) = false). unfold derive_bad_args in Bad.
          destruct (df_export_cdi (dc_flags c)); [exfalso|reflexivity].
          destruct (df_create_cert (dc_flags c)); cbn in X, Bad; [discriminate|]. rewrite ?orb_true_r in Bad; cbn in Bad; discriminate. }
        unfold derive_child. cbv zeta. tstep. tstep. destruct (negb _); [tstep|].
        eapply (traced_bind _ _ _ _ _ (stays stage0)).
        { destruct (df_make_default _); [apply traced_ret; reflexivity|apply t_gen; auto]. }
        intros hh ? ->. tstep. eapply traced_bind; [apply t_add; auto|]. intros tc ? [d ->]. tstep. tstep. tstep. tstep.
        apply t_respond. intros. apply NC; auto.
    - assert (Hh : may_hash (permitted cf (CmdCertifyKey c))) by (intros []; cbn; intros []; exact Logic.I).
      assert (Hr : may_rand (permitted cf (CmdCertifyKey c))) by (intros r; exact Logic.I).
      unfold exec_certify. cbv zeta. tstep. tstep. tstep. repeat (destruct (_ && _)%bool; [tstep|]). destruct (negb _); [tstep|].
      eapply (traced_bind _ _ _ _ _ (fun x s => exists d, s = mkStage ONone (Some d) (N.eqb (ck_format (certify_inner c)) 1) true (Some (cr_pubkey x)))).
      { destruct (N.eqb_spec (ck_format (certify_inner c)) 0) as [E0|E0].
        - rewrite E0. apply t_run_cert. split; [exact Hh|]. cbn. repeat split; auto. discriminate.
        - destruct (N.eqb_spec (ck_format (certify_inner c)) 1) as [E1|E1]; [|tstep].
          apply t_run_cert. split; [exact Hh|]. cbn. repeat split; auto. }
      intros x ? [d ->]. tstep. eapply traced_bind; [apply t_roll; auto|]. intros ? ? ->. tstep.
      destruct (pubkey_bytes _ _); [|tstep]. tstep. apply traced_ret. split; [reflexivity|]. cbn.
      split; [apply N.eqb_eq|]. split; auto.
    - assert (Hh : may_hash (permitted cf (CmdSign c))) by (intros []; cbn; intros []; exact Logic.I).
      assert (Hr : may_rand (permitted cf (CmdSign c))) by (intros r; exact Logic.I).
      unfold exec_sign. eapply traced_bind; [apply traced_lift', calm_inputs|]. intros [[h label] data] ? [I ->]. cbv beta iota.
      tstep. tstep. tstep. destruct (ctx_type_eqb _ _); [tstep|].
      eapply (traced_bind _ _ _ _ _ (fun _ s => exists d, s = mkStage ONone (Some d) true false None)).
      { unfold do_sign. eapply traced_bind; [apply t_cmh; auto|]. intros d ? ->.
        eapply traced_bind; [apply traced_crypto, c_cdi; [intros r; reflexivity|reflexivity|reflexivity]|]. intros ? ? ->.
        eapply traced_bind; [apply traced_crypto, c_key; [intros r; cbn; split; [eauto|reflexivity]|reflexivity]|]. intros ? ? ->.
        eapply traced_weaken; [apply traced_crypto, c_sign; [intros r; cbn; eauto|reflexivity..]|]. intros ? ? ->. exists d. reflexivity. }
      intros sg ? [d ->]. destruct (signature_bytes cf sg); [|tstep]. tstep. eapply traced_bind; [apply t_roll; auto|]. intros ? ? ->. tstep.
      apply t_respond. intros. split; [reflexivity|]. cbn. repeat split; intros; try discriminate; contradiction.
    - unfold exec_rotate. tstep. destruct (negb _); [tstep|]. tstep. destruct (_ && _)%bool; [tstep|].
      eapply (traced_bind _ _ _ _ _ (stays stage0)).
      { destruct (rf_target_default flags) eqn:D; [apply traced_ret; reflexivity|]. apply t_gen; [|reflexivity].
        intros r. cbn [permitted]. rewrite <- contains_bit. exact D. }
      intros ? ? ->. tstep. tstep. apply t_respond. intros. repeat split; cbn; intros; try discriminate; contradiction.
    - unfold exec_destroy. tstep. tstep. tstep. apply t_respond. intros. repeat split; cbn; intros; try discriminate; contradiction.
    - unfold exec_get_chain. destruct (N.ltb _ _); [tstep|]. eapply traced_bind; [apply t_chain_call|]. intros [[n|e] b] ? ->; [|tstep].
      apply t_respond. intros. repeat split; cbn; intros; try discriminate; contradiction.
    - assert (Hh : may_hash (permitted cf (CmdUpdateContextMeasurement c))) by (intros []; cbn; intros []; exact Logic.I).
      assert (Hr : may_rand (permitted cf (CmdUpdateContextMeasurement c))) by (intros r; exact Logic.I).
      unfold exec_update. destruct (handle_is_default _); [tstep|]. tstep.
      eapply traced_bind; [apply traced_lift'|intros ? ? [? ->]].
      { pose proof (calm_pos a (uc_parent_handle c) loc) as K. destruct (get_active_context_pos _ _ _); calm_auto. }
      tstep. tstep. tstep. eapply traced_bind; [apply t_add; auto|]. intros tc ? [d ->]. tstep.
      eapply traced_bind; [apply t_roll; auto|]. intros ? ? ->. tstep. eapply traced_bind; [apply t_roll; auto|]. intros ? ? ->. tstep.
      apply t_respond. intros. repeat split; cbn; intros; try discriminate; contradiction.
  Qed.
End Cmds.
