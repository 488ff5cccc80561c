(** X509Total.v -- creating certificates and requests in any state: what stays
    untouched, what a too small buffer does, and that nothing panics. *)
From Verif Require Import Base Errors Types StateOps Env Wire Instance Commands Lib Spec Exec Forest Contract WireSpec Codec
  Walk Measure Der DerProofs X509 X509Cert X509Run X509Spec X509Bytes X509Enc X509Tbs X509Cms X509Out X509Proper X509Gen X509Read X509ReadOk X509Made.
Open Scope N_scope.
Open Scope dpe_scope.

Section Total.
  Variable cf : config.
  Hypothesis Hcf : config_ok cf.
  Context {C P : Type}.
  Variable co : crypto_ops C.
  Variable po : platform_ops P.
  Notation world := (world C P).
  Notation M := (M C P).

  (** The bytes of an output, or the failure to produce them, as a function of the
      back end alone. *)
  Definition draft_gen (k : cert_kind) (a : cert_args) (s : state) (x : draft) : gen C :=
    let cb := draft_cb C co k a x in
    let md := draft_md k a s x in
    if kind_csr k
    then fcms cf C cb (dr_sid x) (fcsr cf C cb (ca_critical a) md (dr_subject x) (dr_pubkey x))
    else fsigned cf C cb (flift (rwrap 0x30 (rtbs cf (ca_critical a) md (firstn 20 (ds_bytes (nm_serial (dr_subject x))))
           (dr_issuer x) (dr_subject x) (dr_pubkey x) (dr_validity x)))) false.
  Lemma draft_runs k a s x buf c :
    outc C true (draft_gen k a s x) (cw_new buf c) (draft_write cf C co k a s x (cw_new buf c)).
  Proof.
    unfold draft_gen, draft_write. cbv zeta. destruct (kind_csr k).
    - apply (runs_cms cf (ca_critical a) C _ _ _ _ _ 2); [apply runs_csr|unfold max_backtracks; lia|reflexivity|reflexivity].
    - apply runs_certificate; [reflexivity|]. cbn [cw_new cw_back length]. unfold max_backtracks. lia.
  Qed.

  Lemma outcome_keeps k f (w : cw C) r w' : outcome k f w r w' -> X509Run.keeps w w'.
  Proof. destruct 1; assumption. Qed.

  (** *** Frame *)

  Theorem create_cert_frame k a off w r w' : create_cert cf C P co po k a off w = (r, w') ->
    w_st w' = w_st w /\ length (w_out w') = length (w_out w) /\ firstn off (w_out w') = firstn off (w_out w).
  Proof.
    rewrite create_cert_draft. intros H.
    assert (HN : forall w1 : world, w_st w1 = w_st w -> w_out w1 = w_out w ->
              w_st w1 = w_st w /\ length (w_out w1) = length (w_out w) /\ firstn off (w_out w1) = firstn off (w_out w)).
    { intros w1 A B. rewrite A, B. auto. }
    apply bind_inv in H as [(x & wd & E0 & H)|[(e & E0 & _)|(e & E0 & _)]].
    2,3: destruct (blind_keeps _ (blind_draft cf C P co po k a) _ _ _ E0); auto.
    destruct (blind_keeps _ (blind_draft cf C P co po k a) _ _ _ E0) as [K1 K2]. rewrite bind_get_st in H.
    assert (HR : forall r1 w1, run_writer C P off (draft_write cf C co k a (w_st wd) x) wd = (r1, w1) ->
              w_st w1 = w_st w /\ length (w_out w1) = length (w_out w) /\ firstn off (w_out w1) = firstn off (w_out w)).
    { intros r1 w1 E1. unfold run_writer in E1.
      pose proof (draft_runs k a (w_st wd) x (skipn off (w_out wd)) (w_c wd)) as O. unfold outc in O.
      destruct (draft_write _ _ _ _ _ _ _ _) as [r2 w2]. cbn [fst snd] in O. apply outcome_keeps in O. destruct O as [L1 _].
      pose proof (f_equal snd E1) as E2. cbn [snd] in E2. subst w1. cbn [w_st w_out]. split; [exact K1|].
      cbn [cw_new cw_buf] in L1. rewrite K2 in *. rewrite skipn_length in L1. split.
      - rewrite app_length, firstn_length, L1. lia.
      - rewrite firstn_app, firstn_firstn, Nat.min_id. destruct (Nat.le_gt_cases off (length (w_out w))).
        + rewrite firstn_length, Nat.min_l by lia. rewrite Nat.sub_diag. cbn [firstn]. apply app_nil_r.
        + destruct (cw_buf w2); [rewrite firstn_nil; apply app_nil_r|]. cbn [length] in L1. lia. }
    apply bind_inv in H as [(n & w1 & E1 & H)|[(e & E1 & _)|(e & E1 & _)]].
    2,3: apply (HR _ _ E1).
    specialize (HR _ _ E1). unfold draft_result in H.
    assert (HK : Exec.keeps (draft_result C P k x n)).
    { unfold draft_result. keeps_auto. }
    destruct (HK _ _ _ H) as [-> ->]. exact HR.
  Qed.

  (** *** The size of the buffer decides *)

  Lemma draft_blind k a w x wd o : draft_of cf C P co po k a w = (Ok x, wd) ->
    draft_of cf C P co po k a (set_out w o) = (Ok x, set_out wd o).
  Proof. intros H. destruct (blind_draft cf C P co po k a w o) as (E0 & _). rewrite E0, H. reflexivity. Qed.

  Theorem create_cert_sizes k a off w r w' : create_cert cf C P co po k a off w = (Ok r, w') ->
    exists bs, cr_size r = len bs /\ w_out w' = firstn off (w_out w) ++ bs ++ skipn (off + length bs) (w_out w) /\
      (off + length bs <= length (w_out w))%nat /\
      forall out2,
        ((off + length bs <= length out2)%nat ->
           create_cert cf C P co po k a off (set_out w out2)
           = (Ok r, set_out w' (firstn off out2 ++ bs ++ skipn (off + length bs) out2))) /\
        ((length out2 < off + length bs)%nat ->
           fst (create_cert cf C P co po k a off (set_out w out2)) = Err (InternalError CertSizeOverflow)).
  Proof.
    rewrite create_cert_draft. intros H.
    apply bind_inv in H as [(x & wd & E0 & H)|[(e & _ & X)|(e & _ & X)]]; [|discriminate..].
    destruct (blind_keeps _ (blind_draft cf C P co po k a) _ _ _ E0) as [K1 K2]. rewrite bind_get_st in H.
    apply bind_inv in H as [(n & w1 & E1 & H)|[(e & _ & X)|(e & _ & X)]]; [|discriminate..].
    assert (HR : w' = w1 /\ n < 2 ^ 32 /\ n = cr_size r /\ forall w2, draft_result C P k x n w2 = (Ok r, w2)).
    { unfold draft_result in *. unfold to_u32 in *. destruct (N.ltb_spec n (2 ^ 32)) as [L|L]; [|discriminate].
      unfold bind, lift in *. destruct (if kind_exported k then _ else _) as [[h|e|y] w2] eqn:E2; try discriminate.
      assert (w2 = w1). { destruct (kind_exported k); apply (f_equal snd) in E2; cbn [snd ret] in E2; congruence. } subst w2.
      pose proof (f_equal fst H) as F1. pose proof (f_equal snd H) as F2. unfold ret in F1, F2. cbn [fst snd] in F1, F2.
      pose proof (ok_inj _ _ F1) as F3. split; [congruence|]. split; [exact L|]. split; [rewrite <- F3; reflexivity|].
      intros w2. destruct (kind_exported k).
      - apply (f_equal fst) in E2. cbn [fst] in E2. rewrite E2. unfold ret. rewrite F1. reflexivity.
      - unfold ret in *. apply (f_equal fst) in E2. cbn [fst] in E2. apply ok_inj in E2. rewrite E2. rewrite F1. reflexivity. }
    destruct HR as (-> & LN & EN & HR). rewrite <- EN. unfold run_writer in E1.
    pose proof (draft_runs k a (w_st wd) x (skipn off (w_out wd)) (w_c wd)) as O. unfold outc in O.
    destruct (draft_write _ _ _ _ _ _ _ _) as [r2 wr]. cbn [fst snd] in O.
    pose proof (f_equal fst E1) as F1. pose proof (f_equal snd E1) as F2. cbn [fst snd] in F1, F2. subst r2.
    apply fresh_ok in O. destruct O as (bs & Hf & En & HL & Hbuf). exists bs. split; [exact En|].
    assert (HL' : (off + length bs <= length (w_out w))%nat \/ length bs = 0%nat).
    { unfold len in HL. rewrite skipn_length, K2 in HL. lia. }
    assert (NZ : length bs <> 0%nat).
    { intros Z. destruct bs as [|b bs]; [|discriminate]. unfold draft_gen, fcms, fsigned, fwrap, fbind in Hf.
      clear -Hf. destruct (kind_csr k).
      - destruct (fsd _ _ _ _ _ _) as [[sd|e|y] c]; try discriminate. unfold flift in Hf. apply (f_equal fst) in Hf. cbn [fst] in Hf.
        unfold rcms, rwrap, rapp in Hf. cbn [rbind] in Hf.
        repeat match type of Hf with context [if ?b then _ else _] => destruct b; cbn [rbind] in Hf; try discriminate end.
      - destruct (flift _ _) as [[bs|e|y] c]; try discriminate. destruct (fsign _ _ _ _ _ _) as [[b2|e|y] c2]; try discriminate.
        destruct (N.eqb _ 3); discriminate. }
    destruct HL' as [HL'|]; [|contradiction].
    split; [|split; [exact HL'|]].
    { rewrite <- F2. cbn [w_out]. rewrite Hbuf, K2. unfold len. rewrite Nat2N.id, skip_skip. reflexivity. }
    intros out2. rewrite create_cert_draft. unfold bind. rewrite (draft_blind _ _ _ _ _ out2 E0). unfold get_st. cbn [set_out w_st].
    unfold run_writer. cbn [set_out w_st w_c w_p w_out].
    pose proof (draft_runs k a (w_st wd) x (skipn off out2) (w_c wd)) as O. unfold outc in O.
    destruct (draft_write _ _ _ _ _ _ _ _) as [r2 wr2]. cbn [fst snd] in O. split; intros L2.
    - destruct (fresh_done _ _ _ _ _ _ _ _ O Hf) as [R1 R2].
      { unfold len. rewrite skipn_length. lia. }
      subst r2. apply fresh_ok in O. destruct O as (bs2 & Hf2 & En2 & HL2 & Hbuf2).
      rewrite Hf in Hf2. pose proof (f_equal fst Hf2) as G. cbn [fst] in G. apply ok_inj in G. subst bs2.
      rewrite <- En. rewrite HR. f_equal. rewrite <- F2. unfold set_out. cbn [w_st w_c w_p w_out].
      f_equal; [exact R2|]. rewrite Hbuf2. unfold len. rewrite Nat2N.id, skip_skip. reflexivity.
    - inversion O as [b1 c1 w2 Hf' K P' Hk Eo Eb Es Ec|e c1 w2 Hf'|y c1 w2 Hf'|w2 K Hn]; subst;
        cbn [cw_new cw_c] in *; try congruence; [|reflexivity].
      exfalso. rewrite Hf in Hf'. pose proof (f_equal fst Hf') as G. cbn [fst] in G. apply ok_inj in G. subst b1.
      specialize (Hk eq_refl). unfold fits in Hk. cbn [cw_new cw_off cw_buf] in Hk. unfold len in Hk. rewrite skipn_length in Hk. lia.
  Qed.

  (** *** No panics *)

  Lemma nocrash_lift {A} (r : result A) : no_crash r -> nocrash (lift (C := C) (P := P) r).
  Proof. intros H w k w' E0. apply (H k). apply (f_equal fst) in E0. exact E0. Qed.
  Lemma lookup_no_crash s h l : no_crash (get_active_context_pos s h l).
  Proof.
    intros k. unfold get_active_context_pos, get_active_context_pos_internal.
    destruct (filter _ _); [discriminate|]. destruct (filter _ _); [discriminate|].
    destruct (find _ _) as [[]|]; cbn [rbind]; try discriminate. destruct (Nat.leb _ _); discriminate.
  Qed.
  Lemma count_no_crash l n : forall it, sound cf l it -> (max_handles cf < it_count it + n)%nat ->
    (it_count it <= max_handles cf)%nat -> no_crash (iter_count cf n l it).
  Proof.
    induction n as [|n IH]; intros it HS Hn Hc k; [lia|]. cbn [iter_count].
    destruct (sound_next cf l it HS) as [S' Nx].
    destruct (iter_next cf l it) as [o it'] eqn:En. cbn [fst snd] in *. destruct o as [[c|e|y]|]; try discriminate.
    - destruct (Nx _ eq_refl) as [_ M]. destruct (M (ex_intro _ c eq_refl)) as (M1 & M2 & M3).
      destruct HS as [_ SL].
      destruct (iter_count cf n l it') as [y|e|y] eqn:E0; cbn [rbind]; try discriminate.
      exfalso; refine (IH it' S' _ _ y E0); lia.
    - (* an error ends the iteration *)
      assert (HD : it_done it' = true /\ (it_count it < it_path_len it)%nat).
      { unfold iter_next in En. destruct (it_done it); [discriminate|].
        destruct (Nat.leb_spec (it_path_len it) (it_count it)); [discriminate|]. split; [|assumption].
        destruct (Nat.leb _ _); [apply (f_equal snd) in En; cbn [snd] in En; subst it'; reflexivity|].
        destruct (iter_get_context _ _ _); try discriminate; apply (f_equal snd) in En; cbn [snd] in En; subst it'; reflexivity. }
      destruct HS as [_ SL]. destruct HD as [HD HC].
      destruct n as [|n]; [lia|]. cbn [iter_count]. unfold iter_next. rewrite HD. discriminate.
    - exfalso. destruct (Nx _ eq_refl) as [M _]. exact (M y eq_refl).
  Qed.
  Lemma fresh_iter l i it : iter_new cf i l = Ok it -> it_count it = 0%nat.
  Proof.
    unfold iter_new. destruct (iter_new_loop cf (S (max_handles cf)) l i 0); cbn [rbind]; try discriminate.
    intros H. apply ok_inj in H. subst it. reflexivity.
  Qed.
  Lemma fuel_enough : (max_handles cf < fuel cf)%nat.
  Proof. apply Hcf. Qed.
  Lemma nodes_new_no_crash i l : no_crash (tci_nodes_new cf i l).
  Proof.
    intros k. unfold tci_nodes_new. destruct (iter_new cf i l) as [it|e|y] eqn:E0; cbn [rbind]; [|discriminate|].
    2: { exfalso. exact (iter_new_no_crash cf l i y E0). }
    destruct (iter_count cf (fuel cf) l it) as [n|e|y] eqn:E1; cbn [rbind]; [destruct (Nat.ltb _ _); discriminate|discriminate|].
    exfalso. refine (count_no_crash l (fuel cf) it (sound_new cf Hcf l i it E0) _ _ y E1);
      rewrite (fresh_iter _ _ _ E0); pose proof fuel_enough; lia.
  Qed.
  Lemma nodes_no_crash l n : forall it info dice, sound cf l it -> (max_handles cf < it_count it + n)%nat ->
    (it_count it <= max_handles cf)%nat -> nocrash (hash_nodes cf C P co n l it info dice).
  Proof.
    induction n as [|n IH]; intros it info dice HS Hn Hc; [lia|]. cbn [hash_nodes].
    destruct (sound_next cf l it HS) as [S' Nx].
    destruct (iter_next cf l it) as [o it'] eqn:En. cbn [fst snd] in *. destruct o as [[c|e|y]|].
    - destruct (Nx _ eq_refl) as [_ M]. destruct (M (ex_intro _ c eq_refl)) as (M1 & M2 & M3). destruct HS as [_ SL].
      apply nocrash_bind; [apply nocrash_crypto|intros _]. apply nocrash_bind; [apply nocrash_crypto|intros _].
      apply IH; [exact S'|lia|lia].
    - apply nocrash_fail.
    - exfalso. destruct (Nx _ eq_refl) as [M _]. exact (M y eq_refl).
    - apply nocrash_ret.
  Qed.

  Hypothesis Hends : forall p, chain_stops po (fuel cf) 0 (repeat 0 2048) p.

  Lemma chain_no_crash : nocrash (hash_cert_chain C P co po (fuel cf) 0 (repeat 0 (N.to_nat max_chunk_size))).
  Proof.
    intros w k w' H. apply hash_cert_chain_spec in H as [(E0 & _)|[(e & E0)|[E0|(k' & E0 & Hn)]]]; try discriminate.
    apply Hn, Hends.
  Qed.
  Lemma cmh_no_crash i : nocrash (compute_measurement_hash cf C P co po i).
  Proof.
    unfold compute_measurement_hash. apply nocrash_bind; [apply nocrash_crypto|intros _].
    apply nocrash_bind; [apply nocrash_crypto|intros _]. apply nocrash_bind; [apply nocrash_get_st|intros s].
    intros w k w' H. apply bind_lift_inv in H as [(it & E0 & H)|[(e & _ & X & _)|(e & E0 & _)]]; [|discriminate|].
    2: exact (iter_new_no_crash cf _ _ _ E0).
    revert H. apply nocrash_bind.
    - apply nodes_no_crash; [exact (sound_new cf Hcf _ _ _ E0)|..]; rewrite (fresh_iter _ _ _ E0); pose proof fuel_enough; lia.
    - intros [info dice]. apply nocrash_bind; [destruct info; unfold internal_input_info, get_profile; nocrash_auto|intros _].
      apply nocrash_bind; [destruct dice; [apply chain_no_crash|apply nocrash_ret]|intros _]. apply nocrash_crypto.
  Qed.
  Lemma hash_pubkey_no_crash pk : nocrash (hash_pubkey C P co pk).
  Proof. unfold hash_pubkey. destruct (ecdsa_pub pk) as [[[n x] y]|]; [apply hash_all_nocrash|]. destruct pk; first [apply hash_all_nocrash|apply nocrash_fail]. Qed.
  Lemma serial_no_crash pk b : nocrash (get_pubkey_serial C P co pk b).
  Proof.
    unfold get_pubkey_serial. apply nocrash_bind; [intros w k w'; discriminate|intros n]. destruct (Nat.ltb _ _); [apply nocrash_fail|].
    apply nocrash_bind; [intros w k w'; discriminate|intros al]. destruct (negb _); [apply nocrash_fail|].
    apply nocrash_bind; [apply hash_pubkey_no_crash|intros d]. apply nocrash_lift. intros k. unfold write_hex_str. destruct (Nat.ltb _ _); discriminate.
  Qed.
  Lemma draft_no_crash k a : nocrash (draft_of cf C P co po k a).
  Proof.
    unfold draft_of. apply nocrash_bind; [apply nocrash_get_st|intros s0]. apply nocrash_bind; [apply nocrash_lift, lookup_no_crash|intros idx].
    apply nocrash_bind; [apply cmh_no_crash|intros d].
    apply nocrash_bind.
    { unfold derive_subject_key. destruct (kind_exported k); nocrash_auto. }
    intros pkh. cbv zeta. apply nocrash_bind.
    { unfold get_subject_name. apply nocrash_bind; [apply serial_no_crash|intros; apply nocrash_ret]. }
    intros nm. apply nocrash_bind.
    { unfold get_subject_key_identifier. apply nocrash_bind; [apply hash_pubkey_no_crash|intros dg]. destruct (Nat.ltb _ _); nocrash_auto. }
    intros ski. apply nocrash_bind.
    { unfold get_authority_key_identifier. intros w y w'. destruct (po_issuer_key_identifier po _ _) as [[[]]]; discriminate. }
    intros aki. apply nocrash_bind.
    { unfold get_subject_alt_name. intros w y w'. destruct (po_subject_alt_name po _) as [[|[]]]; discriminate. }
    intros san. apply nocrash_bind; [apply nocrash_get_st|intros s]. apply nocrash_bind; [apply nocrash_lift, lookup_no_crash|intros idx2].
    apply nocrash_bind; [apply nocrash_lift, nodes_new_no_crash|intros _]. apply nocrash_bind; [apply nocrash_platform|intros v].
    apply nocrash_bind; [apply nocrash_platform|intros sid]. apply nocrash_bind.
    { destruct (kind_csr k); [apply nocrash_ret|]. unfold get_issuer_name. intros w y w'. destruct (po_issuer_name po _ _) as [[[]]]; try discriminate. destruct (N.ltb _ _); discriminate. }
    intros; apply nocrash_ret.
  Qed.

  Lemma declared_no_crash md : no_crash (declared cf md).
  Proof.
    intros k. unfold declared, nodes_empty, nodes_num, nodes_first, nodes_iter.
    destruct (iter_new cf (md_start md) (md_contexts md)) as [it|e|y] eqn:E0; cbn [rbind]; [|discriminate|].
    2: { exfalso. exact (iter_new_no_crash cf _ _ y E0). }
    destruct (Nat.eqb _ _); [discriminate|]. 
    destruct (sound_next_back cf (md_contexts md) it (sound_new cf Hcf _ _ _ E0)) as [_ Nx].
    destruct (fst (iter_next_back cf (md_contexts md) it)) as [[c|e|y]|]; cbn [rbind ok_or]; try discriminate.
    exfalso. destruct (Nx _ eq_refl) as [M _]. exact (M y eq_refl).
  Qed.
  Lemma collected_no_crash md : no_crash (collect cf md).
  Proof.
    intros k. unfold collect, nodes_iter.
    destruct (iter_new cf (md_start md) (md_contexts md)) as [it|e|y] eqn:E0; cbn [rbind]; [|discriminate|].
    2: { exfalso. exact (iter_new_no_crash cf _ _ y E0). }
    apply collect_no_crash; [exact (sound_new cf Hcf _ _ _ E0)|..]; rewrite (fresh_iter _ _ _ E0); pose proof fuel_enough; lia.
  Qed.
  Lemma rbind_no_crash {A B} (r : result A) (f : A -> result B) : no_crash r -> (forall a, no_crash (f a)) -> no_crash (rbind r f).
  Proof. intros H1 H2 k. destruct r as [a|e|y]; cbn [rbind]; [apply H2|discriminate|]. intros _. exact (H1 y eq_refl). Qed.
  Lemma rwrap_no_crash t r : no_crash r -> no_crash (rwrap t r).
  Proof. intros H. apply rbind_no_crash; [exact H|]. intros b k. destruct (N.eqb _ 3); discriminate. Qed.
  Lemma rspki_no_crash pk : no_crash (rspki cf pk).
  Proof. intros k. unfold rspki. destruct (spki_der cf pk); discriminate. Qed.

  Definition gen_no_crash (f : gen C) : Prop := forall c k c', f c <> (Crash k, c').
  Lemma fbind_no_crash f g : gen_no_crash f -> (forall b, gen_no_crash (g b)) -> gen_no_crash (fbind f g).
  Proof. intros H1 H2 c k c'. unfold fbind. destruct (f c) as [[a|e|y] c1] eqn:E0; [apply H2|discriminate|]. exfalso. exact (H1 _ _ _ E0). Qed.
  Lemma flift_no_crash r : no_crash r -> gen_no_crash (flift r).
  Proof. intros H c k c' E0. apply (H k). apply (f_equal fst) in E0. exact E0. Qed.
  Lemma fsign_no_crash cb b d h : gen_no_crash (fsign C cb b d h).
  Proof. intros c k c'. unfold fsign. destruct (cb _ _ _) as [[]]; discriminate. Qed.
  Lemma fsigned_no_crash cb f d : gen_no_crash f -> gen_no_crash (fsigned cf C cb f d).
  Proof.
    intros H. unfold fsigned, fwrap. apply fbind_no_crash.
    - apply fbind_no_crash; [exact H|intros; apply fsign_no_crash].
    - intros b c k c'. destruct (N.eqb _ 3); discriminate.
  Qed.
  Lemma rencap_no_crash b : no_crash (rencap b).
  Proof.
    unfold rencap. apply rwrap_no_crash. unfold rapp. apply rbind_no_crash; [intros k; discriminate|intros h].
    apply rbind_no_crash; [apply rwrap_no_crash, rwrap_no_crash; intros k; discriminate|intros t k; discriminate].
  Qed.
  Lemma rcms_no_crash b : no_crash (rcms b).
  Proof.
    unfold rcms. apply rwrap_no_crash. unfold rapp. apply rbind_no_crash; [intros k; discriminate|intros h].
    apply rbind_no_crash; [apply rwrap_no_crash, rwrap_no_crash; intros k; discriminate|intros t k; discriminate].
  Qed.
  Lemma draft_gen_no_crash k a s x : gen_no_crash (draft_gen k a s x).
  Proof.
    unfold draft_gen. cbv zeta. destruct (kind_csr k).
    - unfold fcms, fsd. apply fbind_no_crash; [|intros; apply flift_no_crash, rcms_no_crash].
      apply fbind_no_crash.
      + unfold fcsr. apply fsigned_no_crash, flift_no_crash, rwrap_no_crash. unfold rinfo, rattrs.
        apply rbind_no_crash; [apply rspki_no_crash|intros pk]. apply rbind_no_crash; [|intros t k'; discriminate].
        apply rbind_no_crash; [apply declared_no_crash|intros D]. apply rbind_no_crash; [apply collected_no_crash|intros t k'; discriminate].
      + intros b. apply fbind_no_crash; [apply flift_no_crash, rencap_no_crash|intros; apply fsign_no_crash].
    - apply fsigned_no_crash, flift_no_crash, rwrap_no_crash. unfold rtbs, rexts.
      apply rbind_no_crash; [apply rspki_no_crash|intros pk]. apply rbind_no_crash; [|intros t k'; discriminate].
      apply rbind_no_crash; [apply declared_no_crash|intros D]. apply rbind_no_crash; [apply collected_no_crash|intros t k'; discriminate].
  Qed.

  Theorem create_cert_no_crash k a off : nocrash (create_cert cf C P co po k a off).
  Proof.
    intros w y w'. rewrite create_cert_draft. apply nocrash_bind; [apply draft_no_crash|intros x].
    apply nocrash_bind; [apply nocrash_get_st|intros s]. apply nocrash_bind.
    - intros w1 y1 w2 H. unfold run_writer in H.
      pose proof (draft_runs k a s x (skipn off (w_out w1)) (w_c w1)) as O. unfold outc in O.
      destruct (draft_write _ _ _ _ _ _ _ _) as [r2 wr]. cbn [fst snd] in O. apply (f_equal fst) in H. cbn [fst] in H. subst r2.
      inversion O as [| |? ? ? Hf|]. exact (draft_gen_no_crash _ _ _ _ _ _ _ Hf).
    - intros n. unfold draft_result. apply nocrash_bind.
      + apply nocrash_lift. intros k1. unfold to_u32. destruct (N.ltb _ _); discriminate.
      + intros m. apply nocrash_bind; [|intros; apply nocrash_ret]. destruct (kind_exported k); [|apply nocrash_ret].
        apply nocrash_lift. intros k1. destruct (dr_exported x); discriminate.
  Qed.
End Total.
