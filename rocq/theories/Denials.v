(** Denials.v -- which commands are refused, and how. *)
From Verif Require Import Base Errors Types StateOps Env Wire Instance Commands Lib Spec Exec
  Effects Forest DestroyProofs History Steps.
Local Open Scope nat_scope.
Open Scope dpe_scope.

Lemma testbit_case v i : contains v (bit i) = true \/ contains v (bit i) = false.
Proof. destruct (contains v (bit i)); auto. Qed.

Lemma unsupported_iff s f : derive_unsupported (st_support s) f = true <-> unsupported_option s f.
Proof.
  unfold derive_unsupported, unsupported_option, supports,
    sup_internal_info, sup_internal_dice, sup_retain_parent, sup_x509, sup_cdi_export, sup_recursive,
    df_internal_info, df_internal_dice, df_retain_parent, df_allow_x509, df_create_cert, df_export_cdi, df_recursive,
    INTERNAL_INFO, INTERNAL_DICE, RETAIN_PARENT_CONTEXT, X509, CDI_EXPORT, RECURSIVE.
  rewrite !contains_bit, !orb_true_iff, !andb_true_iff, !negb_true_iff, !orb_true_iff, <- !not_true_iff_false. tauto.
Qed.

Lemma lookup_denied s h loc :
  (forall i, ~ names s h loc i) -> exists er, get_active_context_pos s h loc = Err er /\ denied s loc er.
Proof.
  intros N. pose proof (lookup_spec s h loc) as L. unfold denied.
  destruct (get_active_context_pos s h loc) as [i|er|k]; [exfalso; apply (N i); apply L| |contradiction].
  exists er. split; [reflexivity|]. destruct er; try contradiction; [right; split; [reflexivity|apply L]|left; auto].
Qed.

Lemma lookup_idx_denied s h loc :
  (forall i, ~ names s h loc i) -> exists er, get_active_context_and_idx s h loc = Err er /\ denied s loc er.
Proof.
  intros N. destruct (lookup_denied s h loc N) as (er & E & D). exists er. split; [|exact D].
  unfold get_active_context_and_idx. rewrite E. reflexivity.
Qed.

Section Denials.
  Variable cf : config.
  Variables C P : Type.
  Variable co : crypto_ops C.
  Variable po : platform_ops P.
  Variable cg : cert_kind -> cert_args -> nat -> state -> C -> P -> bytes ->
                result cert_result * C * P * bytes.

  (** A handle that names nothing: nothing happens. *)
  Lemma command_denied cmd h loc w r w' :
    exec_command cf C P co po cg cmd loc w = (r, w') ->
    presents cmd h -> (forall i, ~ names (w_st w) h loc i) ->
    w' = w /\ exists er, r = Err er /\
      (denied (w_st w) loc er \/ early (w_st w) cmd er \/
       (er = InvalidParentLocality /\ exists u, cmd = CmdUpdateContextMeasurement u)).
  Proof.
    intros H Hp N. destruct cmd; cbn [exec_command presents] in *; try contradiction.
    - subst h. unfold exec_derive in H. mstep H. mstep H.
      + apply unsupported_iff in B. apply fail_inv in H as [-> ->]. split; [reflexivity|].
        exists ArgumentNotSupported. cbn. auto.
      + destruct (lookup_idx_denied _ _ _ N) as (er & E & D). rewrite E in H.
        inversion H; subst. eauto 6.
    - assert (h = ck_handle (certify_inner c)) as -> by (destruct c; exact Hp).
      unfold exec_certify in H. mstep H.
      destruct (lookup_denied _ _ _ N) as (er & E & D). rewrite E in H. inversion H; subst. eauto 6.
    - unfold exec_sign in H. destruct (sign_inputs c) as [[[h0 lb] da]|er|k] eqn:SI.
      + assert (h0 = h) as ->.
        { destruct c; cbn in SI, Hp; try congruence.
          destruct (sr_size c <=? N.of_nat (length (sr_raw c)))%N; congruence. }
        change (lift (Ok (h, lb, da))) with (@ret C P _ (h, lb, da)) in H. mstep H. mstep H.
        destruct (lookup_denied _ _ _ N) as (er & E & D). rewrite E in H. inversion H; subst. eauto 6.
      + inversion H; subst. split; [reflexivity|]. exists er. split; [reflexivity|]. right; left.
        destruct c; cbn in SI; try discriminate. cbn.
        destruct (N.leb_spec (sr_size c) (N.of_nat (length (sr_raw c)))); [discriminate|].
        split; [congruence|assumption].
      + destruct c; cbn in SI; try discriminate.
        destruct (sr_size c <=? N.of_nat (length (sr_raw c)))%N; discriminate.
    - subst h. unfold exec_rotate in H. mstep H. mstep H.
      + apply negb_true_iff in B. unfold sup_rotate in B. rewrite contains_bit in B.
        apply fail_inv in H as [-> ->]. split; [reflexivity|].
        exists InvalidCommand. split; [reflexivity|]. right; left. cbn. split; [reflexivity|].
        unfold supports, ROTATE_CONTEXT. congruence.
      + destruct (lookup_denied _ _ _ N) as (er & E & D). rewrite E in H. inversion H; subst. eauto 6.
    - subst h. unfold exec_destroy in H. mstep H.
      destruct (lookup_idx_denied _ _ _ N) as (er & E & D). unfold destroy_context in H. rewrite E in H.
      inversion H; subst. eauto 6.
    - subst h. unfold exec_update in H. mstep H.
      + apply fail_inv in H as [-> ->]. split; [reflexivity|]. exists InvalidArgument. split; [reflexivity|].
        right; left. cbn. split; [reflexivity|]. apply handle_is_default_eq in B. exact B.
      + mstep H. destruct (lookup_denied _ _ _ N) as (er & E & D). rewrite E in H. inversion H; subst.
        split; [reflexivity|]. exists InvalidParentLocality. split; [reflexivity|]. right; right. eauto.
  Qed.

  (** Missing features. *)
  Lemma derive_refused c loc w r w' :
    exec_command cf C P co po cg (CmdDeriveContext c) loc w = (r, w') ->
    unsupported_option (w_st w) (dc_flags c) -> r = Err ArgumentNotSupported /\ w' = w.
  Proof.
    intros H U. cbn [exec_command] in H. unfold exec_derive in H. mstep H. apply unsupported_iff in U. rewrite U in H.
    inversion H; auto.
  Qed.
  Lemma init_refused f loc w r w' :
    exec_command cf C P co po cg (CmdInitCtx f) loc w = (r, w') ->
    (N.testbit f 31 = true /\ ~ supports (w_st w) SIMULATION) \/
    (N.testbit f 30 = true /\ st_init (w_st w) = true) ->
    r = Err ArgumentNotSupported /\ w' = w.
  Proof.
    intros H U. cbn [exec_command] in H. unfold exec_init in H. mstep H.
    unfold if_default, if_simulation, sup_simulation in H. rewrite !contains_bit in H.
    unfold supports, SIMULATION in U. rewrite not_true_iff_false in U.
    assert (E : ((N.testbit f 30 && st_init (w_st w)) || (N.testbit f 31 && negb (N.testbit (st_support (w_st w)) 31)))%bool = true).
    { destruct U as [[-> ->]|[-> ->]]; cbn; auto using orb_true_r. }
    rewrite E in H. inversion H; auto.
  Qed.
  Lemma rotate_refused h f loc w r w' :
    exec_command cf C P co po cg (CmdRotateCtx h f) loc w = (r, w') ->
    ~ supports (w_st w) ROTATE_CONTEXT -> r = Err InvalidCommand /\ w' = w.
  Proof.
    intros H U. cbn [exec_command] in H. unfold exec_rotate in H. mstep H.
    unfold sup_rotate in H. rewrite contains_bit in H.
    unfold supports, ROTATE_CONTEXT in U. rewrite not_true_iff_false in U. rewrite U in H.
    inversion H; auto.
  Qed.
  Lemma certify_refused c loc w r w' :
    exec_command cf C P co po cg (CmdCertifyKey c) loc w = (r, w') ->
    (ck_format (certify_inner c) = 0%N /\ ~ supports (w_st w) X509) \/
    (ck_format (certify_inner c) = 1%N /\ ~ supports (w_st w) CSR) \/
    (1 < ck_format (certify_inner c))%N ->
    w' = w /\ exists er, r = Err er /\
      (denied (w_st w) loc er \/ er = (if (1 <? ck_format (certify_inner c))%N then InvalidArgument else ArgumentNotSupported)).
  Proof.
    intros H U. cbn [exec_command] in H. unfold exec_certify in H. mstep H.
    pose proof (lookup_spec (w_st w) (ck_handle (certify_inner c)) loc) as L.
    destruct (get_active_context_pos (w_st w) (ck_handle (certify_inner c)) loc) as [i|er|k] eqn:E; [| |contradiction].
    2:{ inversion H; subst. split; [reflexivity|]. exists er; split; [reflexivity|]. left. unfold denied.
        destruct er; try contradiction; [right; split; [reflexivity|apply L]|left; auto]. }
    destruct L as [(ctx & Hctx & Ha & Hl & Hh) _].
    change (lift (Ok i)) with (@ret C P _ i) in H. mstep H. mstep H; [|unfold at_slot, get_ctx in *; congruence].
    assert (c0 = ctx) by (unfold at_slot, get_ctx in *; congruence). subst c0.
    unfold sup_x509, sup_csr in H. rewrite !contains_bit in H.
    unfold supports, X509, CSR in U. rewrite !not_true_iff_false in U.
    destruct U as [[Ef U]|[[Ef U]|Ef]].
    - rewrite Ef, U in H. inversion H; subst. rewrite Ef. eauto.
    - rewrite Ef, U in H. inversion H; subst. rewrite Ef. eauto.
    - destruct (N.eqb_spec (ck_format (certify_inner c)) 0) as [X|_]; [rewrite X in Ef; lia|].
      destruct (N.eqb_spec (ck_format (certify_inner c)) 1) as [X|_]; [rewrite X in Ef; lia|].
      cbn [andb] in H. rewrite Hl, N.eqb_refl in H. cbn [negb] in H. inversion H; subst.
      apply N.ltb_lt in Ef. rewrite Ef. eauto.
  Qed.
  Lemma new_auto_init_refused ty m w r w' :
    dpe_new_auto_init cf C P co po ty m w = (r, w') ->
    ~ supports (w_st w) AUTO_INIT -> r = Err ArgumentNotSupported /\ w' = w.
  Proof.
    intros H U. unfold dpe_new_auto_init in H. mstep H.
    unfold sup_auto_init in H. rewrite contains_bit in H.
    unfold supports, AUTO_INIT in U. rewrite not_true_iff_false in U. rewrite U in H.
    inversion H; auto.
  Qed.
End Denials.
