(** ExportProofs.v -- the back end during DeriveContext with EXPORT_CDI. *)
From Verif Require Import Base Errors Types StateOps Env Wire Instance Commands X509 X509Cert Lib Spec Exec Effects History Contract Codec Steps Reach
  Responses Measure X509Run X509Spec X509Enc X509Cmd CryptoUse.
Open Scope N_scope.
Open Scope dpe_scope.

(** ** Specification *)

(** The back end was asked for an exported CDI for digest [d] and label [l] in [c0], gave
    the handle [h], and then named [pk] as the public key for this handle, key label [k]
    and context [x], in [c3]. *)
Definition exported_key {C} (co : crypto_ops C) (d : digest) (l k x : bytes) (h : bytes) (pk : pubkey) (c0 c3 : C) : Prop :=
  exists c1 c2, co_derive_exported_cdi co d l c0 = (inl h, c1) /\
    co_derive_key_pair_exported co (to_buf 32 h) k x c1 = (inl tt, c2) /\
    co_signer_public_key co c2 = (inl pk, c3).

(** ** Proofs *)

Section Export.
  Variable cf : config.
  Hypothesis Hcf : config_ok cf.
  Context {C P : Type}.
  Variable co : crypto_ops C.
  Variable po : platform_ops P.
  Notation exec := (exec_command cf C P co po (x509_gen cf C P co po)).
  Notation through := (@through C P co).

  Lemma create_flow a off w r w' i : create_cert cf C P co po KindExported a off w = (Ok r, w') ->
    first_slot (names (w_st w) (ca_handle a) (ca_locality a)) i ->
    exists d w1 h c3, compute_measurement_hash cf C P co po i w = (Ok d, w1) /\
      exported_key co d (ca_cdi_label a) (ca_key_label a) (ca_context a) h (cr_pubkey r) (w_c w1) c3 /\
      cr_exported r = to_buf 32 h /\ uses co c3 (w_c w').
  Proof.
    intros H HF. unfold create_cert in H. cbn [kind_csr kind_exported] in H.
    apply bind_inv in H as [(s0 & w0 & E & H)|[(e & _ & X)|(e & _ & X)]]; [|discriminate..].
    apply (f_equal (fun t => (fst t, snd t))) in E. unfold get_st in E. cbn [fst snd] in E.
    assert (s0 = w_st w /\ w0 = w) as [-> ->] by (split; congruence). clear E.
    apply bind_inv in H as [(idx & w0 & E & H)|[(e & _ & X)|(e & _ & X)]]; [|discriminate..].
    apply lift_inv in E as [E ->]. symmetry in E.
    apply bind_inv in H as [(d & w1 & Ed & H)|[(e & _ & X)|(e & _ & X)]]; [|discriminate..].
    assert (idx = i).
    { apply lookup_ok in HF. congruence. }
    subst idx. clear E.
    apply bind_inv in H as [(pkh & w2 & E & H)|[(e & _ & X)|(e & _ & X)]]; [|discriminate..].
    unfold derive_subject_key in E. cbn [kind_exported] in E. change max_exported_cdi_size with 32%nat in *.
    apply bind_inv in E as [(h & u1 & G1 & E)|[(e & _ & X)|(e & _ & X)]]; [|discriminate..]. cbv zeta in E.
    apply bind_inv in E as [(tt1 & u2 & G2 & E)|[(e & _ & X)|(e & _ & X)]]; [|discriminate..].
    apply bind_inv in E as [(pk & u3 & G3 & E)|[(e & _ & X)|(e & _ & X)]]; [|discriminate..].
    apply ret_inv in E as [E ->]. apply ok_inj in E. subst pkh. cbn [fst snd] in H.
    apply crypto_inv in G1 as (c1 & -> & [(a1 & A1 & B1)|(e & A1 & _)]); [|discriminate]. apply ok_inj in A1. subst a1.
    apply crypto_inv in G2 as (c2 & -> & [(a2 & A2 & B2)|(e & A2 & _)]); [|discriminate]. apply ok_inj in A2. subst a2.
    apply crypto_inv in G3 as (c3 & -> & [(a3 & A3 & B3)|(e & A3 & _)]); [|discriminate]. apply ok_inj in A3. subst a3.
    cbn [w_c] in *. destruct tt1. exists d, w1, h, c3. split; [exact Ed|].
    set (wx := mkWorld _ c3 _ _) in H.
    assert (K : forall {A} (m : M C P A) (f : A -> M C P cert_result) u, through m -> bind m f u = (Ok r, w') ->
              exists a v, uses co (w_c u) (w_c v) /\ f a v = (Ok r, w') /\ m u = (Ok a, v)).
    { intros A m f u T B. apply bind_inv in B as [(x & v & E1 & E2)|[(e & _ & X)|(e & _ & X)]]; [|discriminate..].
      exists x, v. split; [exact (T _ _ _ E1)|]. split; [exact E2|exact E1]. }
    cut ((cr_pubkey r = pk /\ cr_exported r = to_buf 32 h) /\ uses co (w_c wx) (w_c w')).
    { intros [[-> ->] U]. split; [exists c1, c2; auto|]. split; [reflexivity|exact U]. }
    clearbody wx. clear B1 B2 B3 Ed.
    assert (Hcb : forall m b, calling co (sign_cb C co KindExported a d (Some (to_buf 32 h)) m b))
      by (intros; unfold sign_cb, sign_with_derived; calling_auto).
    apply K in H as (x1 & v1 & U1 & H & _).
    2:{ unfold get_subject_name, get_pubkey_serial. through_auto. apply u_hash_pubkey. }
    apply K in H as (x2 & v2 & U2 & H & _).
    2:{ unfold get_subject_key_identifier. through_auto. apply u_hash_pubkey. }
    apply K in H as (x3 & v3 & U3 & H & _).
    2:{ apply through_same. intros u. unfold get_authority_key_identifier. destruct (po_issuer_key_identifier _ _ _) as [[[x|e] b] p]; reflexivity. }
    apply K in H as (x4 & v4 & U4 & H & _).
    2:{ apply through_same. intros u. unfold get_subject_alt_name. destruct (po_subject_alt_name _ _) as [[x|[]] p]; reflexivity. }
    apply K in H as (x5 & v5 & U5 & H & _); [|through_auto].
    apply K in H as (x6 & v6 & U6 & H & _); [|through_auto].
    apply K in H as (x7 & v7 & U7 & H & _); [|through_auto]. cbv zeta in H.
    apply K in H as (x8 & v8 & U8 & H & _); [|through_auto].
    apply K in H as (x9 & v9 & U9 & H & _); [|through_auto].
    apply K in H as (xa & va & Ua & H & _).
    2:{ apply through_bind; [|intros; unfold generate_cert; through_auto; apply u_writer, wu_certificate; intros; apply Hcb].
        apply through_same. intros u. unfold get_issuer_name. destruct (po_issuer_name _ _ _) as [[[x|e] b] p]; reflexivity. }
    apply K in H as (xb & vb & Ub & H & Eb); [|through_auto].
    apply lift_inv in Eb as [Eb _]. apply ok_inj in Eb. apply ret_inv in H as [H ->]. apply ok_inj in H. subst r xb. cbn [cr_pubkey cr_exported].
    split; [auto|]. repeat (eapply uses_trans; [eassumption|]). constructor.
  Qed.

  Lemma export_flow d loc w n w' : wf cf (w_st w) -> wf cf (w_st w') ->
    N.testbit (dc_flags d) 23 = true -> N.testbit (dc_flags d) 24 = false ->
    exec (CmdDeriveContext d) loc w = (Ok n, w') ->
    exists u ueid cr w0 w1, ueid_get u = Some ueid /\ w_st w0 = w_st w /\ uses co (w_c w) (w_c w0) /\
      create_cert cf C P co po KindExported (export_args cf d loc (w_st w) ueid) exported_hdr_size w0 = (Ok cr, w1) /\
      w_c w1 = w_c w' /\ n = N.of_nat exported_hdr_size + cr_size cr /\
      skipn exported_hdr_size (w_out w') = skipn exported_hdr_size (w_out w1) /\
      slice (w_out w') 44 32 = to_buf 32 (cr_exported cr).
  Proof.
    intros W W' B23 B24 H. cbn [exec_command] in H. unfold exec_derive in H. cbv zeta in H. rewrite bind_get_st in H.
    destruct (derive_unsupported _ _); [discriminate|].
    apply bind_lift_inv in H as [([pc0 parent] & _ & H)|[(e & _ & X & _)|(e & _ & X & _)]]; [|discriminate..].
    destruct (derive_bad_args pc0 (dc_flags d)) eqn:BA; [discriminate|].
    assert (R : df_recursive (dc_flags d) = false) by (unfold df_recursive; rewrite contains_bit; exact B24).
    assert (X1 : df_export_cdi (dc_flags d) = true) by (unfold df_export_cdi; rewrite contains_bit; exact B23).
    assert (X2 : df_create_cert (dc_flags d) = true).
    { unfold derive_bad_args in BA. rewrite X1 in BA. destruct (df_create_cert (dc_flags d)); [reflexivity|].
      repeat (apply orb_false_elim in BA as [BA ?]). discriminate. }
    rewrite R in H.
    apply bind_lift_inv in H as [(un & _ & H)|[(e & _ & X & _)|(e & _ & X & _)]]; [|discriminate..].
    destruct un; [|discriminate]. cbn [negb] in H.
    apply bind_st_get_inv in H as [(pc & _ & H)|(_ & X & _)]; [|discriminate].
    apply bind_inv in H as [(tp & w0 & E0 & H)|[(e & _ & X)|(e & _ & X)]]; [|discriminate..].
    assert (U0 : uses co (w_c w) (w_c w0)).
    { revert E0. apply (u_tmp co). }
    assert (S0 : w_st w0 = w_st w).
    { revert E0. unfold derive_tmp_parent. destruct (df_retain_parent _).
      - destruct (negb _); [|intros E0; apply ret_inv in E0 as [_ ->]; reflexivity].
        intros E0. apply bind_inv in E0 as [(hh & w1 & E & E0)|[(e & _ & X)|(e & _ & X)]]; [|discriminate..].
        apply generate_new_handle_keeps in E. apply ret_inv in E0 as [_ ->]. apply E.
      - intros E0. apply ret_inv in E0 as [_ ->]. reflexivity. }
    rewrite X1, X2 in H. cbn [andb] in H. unfold derive_export in H.
    apply bind_inv in H as [(u & w1 & E1 & H)|[(e & _ & X)|(e & _ & X)]]; [|discriminate..].
    apply platform_inv in E1 as (p1 & -> & _).
    apply bind_lift_inv in H as [(ueid & Eu & H)|[(e & _ & X & _)|(e & _ & X & _)]]; [|discriminate..].
    rewrite bind_get_st in H. cbn [w_st] in H.
    apply bind_inv in H as [(cr & w2 & E2 & H)|[(e & _ & X)|(e & _ & X)]]; [|discriminate..].
    rewrite run_create in E2. fold (export_args cf d loc (w_st w0) ueid) in E2. rewrite S0 in E2.
    exists u, ueid, cr, (mkWorld (w_st w) (w_c w0) p1 (w_out w0)), w2. split. { destruct (ueid_get u); cbn [ok_or] in Eu; congruence. }
    split; [reflexivity|]. split; [exact U0|]. split; [exact E2|]. clear E2 E0 U0 S0 Eu.
    apply bind_inv in H as [(hc & w3 & E3 & H)|[(e & _ & X)|(e & _ & X)]]; [|discriminate..].
    assert (K3 : w_c w3 = w_c w2 /\ w_out w3 = w_out w2).
    { destruct (negb (df_retain_parent _)).
      - apply bind_st_get_inv in E3 as [(x & _ & E3)|(_ & X & _)]; [|discriminate]. apply ret_inv in E3 as [_ ->]. auto.
      - apply ret_inv in E3 as [_ ->]. auto. }
    apply bind_inv in H as [(q & w4 & E4 & H)|[(e & _ & X)|(e & _ & X)]]; [|discriminate..].
    assert (K4 : w_c w4 = w_c w3 /\ w_out w4 = w_out w3).
    { destruct (negb hc).
      - rewrite bind_get_st in E4. apply bind_lift_inv in E4 as [(s4 & _ & E4)|[(e & _ & X & _)|(e & _ & X & _)]]; [|discriminate..].
        unfold put_st in E4. apply (f_equal snd) in E4. cbn [snd] in E4. subst w4. auto.
      - unfold st_set in E4. rewrite bind_get_st in E4. destruct (Nat.ltb _ _); [|discriminate].
        unfold put_st in E4. apply (f_equal snd) in E4. cbn [snd] in E4. subst w4. auto. }
    apply bind_st_index_inv in H as [(pp & Hpp & H)|(_ & X & _)]; [|discriminate].
    apply bind_inv in H as [(q5 & w5 & E5 & H)|[(e & _ & X)|(e & _ & X)]]; [|discriminate..].
    apply write_out_inv in E5 as (S5 & C5 & _ & [(L5 & _ & O5)|(_ & X & _)]); [|discriminate].
    apply ret_inv in H as [H ->]. apply ok_inj in H.
    assert (L : length (c_handle pp) = 16%nat).
    { apply (handle_len cf (w_st w5) parent pp); [exact W'|]. rewrite S5. exact Hpp. }
    assert (HB : length (exported_hdr_bytes cf invalid_handle (c_handle pp) (to_buf exported_cdi_size (cr_exported cr)) (cr_size cr)) = exported_hdr_size).
    { unfold exported_hdr_bytes. rewrite !app_length, length_ok_hdr, L, length_le_bytes, length_to_buf. reflexivity. }
    destruct K3 as [K31 K32], K4 as [K41 K42].
    split; [congruence|]. split; [exact H|]. rewrite O5.
    split; [rewrite skip_overwrite by exact HB; congruence|].
    change exported_cdi_size with 32%nat in *.
    rewrite slice_overwrite by (rewrite HB; apply Nat.leb_le; reflexivity).
    unfold exported_hdr_bytes. rewrite !app_assoc, <- (app_assoc _ (to_buf 32 _)).
    assert (L3 : length ((ok_hdr_bytes cf ++ invalid_handle) ++ c_handle pp) = 44%nat) by (rewrite !app_length, length_ok_hdr, L; reflexivity).
    pose proof (slice_mid _ (to_buf 32 (cr_exported cr)) (le_bytes 4 (cr_size cr)) 44 L3) as Q.
    rewrite length_to_buf in Q. exact Q.
  Qed.
End Export.
