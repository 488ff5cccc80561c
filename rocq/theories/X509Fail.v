(** X509Fail.v -- why creating a certificate or request may fail: the complete list of
    errors [create_cert] answers, each with the circumstances that justify it. *)
From Verif Require Import Base Errors Types StateOps Env Wire Instance Commands Response Lib Spec Exec Effects Forest History Contract Codec Steps Reach CommandSpecs
  Responses Execute Walk Measure Reasons Explain Avail Der DerProofs X509 X509Cert X509Run X509Spec X509Bytes X509Enc X509Tbs X509Cms X509Out X509Proper X509Gen X509Read
  X509ReadOk X509Made X509Total X509Sane X509Cmd X509Facts X509Size X509Fit X509Width.
Open Scope N_scope.
Open Scope dpe_scope.

(** ** Vocabulary *)
Section Faults.
  Variable cf : config.
  Context {C P : Type}.
  Variable co : crypto_ops C.
  Variable po : platform_ops P.

  (** Some call to the crypto back end failed, or the back end names a signature
      algorithm that does not go with its keys. *)
  Definition cert_fault (e : crypto_error) : Prop :=
    hash_fault co e \/ key_fault co e \/
    (exists d i c c', co_derive_exported_cdi co d i c = (inr e, c')) \/
    (exists h l i c c', co_derive_key_pair_exported co h l i c = (inr e, c')) \/
    (exists c c', co_signer_public_key co c = (inr e, c')) \/
    (exists d c c', co_sign_with_alias co d c = (inr e, c')) \/
    (e = CEMismatchedAlgorithm /\ exists c, ~ (co_signature_algorithm co c = AlgMldsa87 <-> prof cf = Mldsa87)).

  (** The platform did not tell something that goes into the output; a missing
      alternative name is no fault. *)
  Definition names_fault (e : platform_error) : Prop :=
    (exists p b' p', po_issuer_key_identifier po (repeat 0 20) p = (inr e, b', p')) \/
    (e <> PENotImplemented /\ exists p p', po_subject_alt_name po p = (inr e, p')) \/
    (exists p p', po_cert_validity po p = (inr e, p')) \/
    (exists p p', po_signer_identifier po p = (inr e, p')) \/
    (exists p b' p', po_issuer_name po (repeat 0 128) p = (inr e, b', p')).

  (** How long an output for the chain [cts] with a label of [u] bytes may get. *)
  Definition longest (a b : N) (k : cert_kind) (s : state) (cts : list context) (u : N) : N :=
    chain_max cf k s cts + u + b + a + 2 * alg_max (prof cf) + spki_max (prof cf) + bits_max (prof cf) +
    (if kind_csr k then 343 + octets_max (prof cf) else if kind_exported k then 364 else 322).

  (** Creating an output of kind [k] for [h] in [loc], with [room] bytes left, failed. *)
  Definition cert_refusal (a b : N) (k : cert_kind) (h : bytes) (loc : N) (s : state) (u room : N) (e : dpe_error) : Prop :=
    not_yours s h loc e \/
    exists i cts, first_slot (names s h loc) i /\ lineage s i cts /\
      (no_measurement co po s i e \/
       (exists ce, e = CryptoErr ce /\ cert_fault ce) \/
       (exists pe, e = PlatformErr pe /\ names_fault pe) \/
       (e = InternalError CertSizeOverflow /\ room < longest a b k s cts u)).
End Faults.

(** ** Counting the contexts of the chain *)
Section Count.
  Variable cf : config.
  Hypothesis Hcf : config_ok cf.
  Variable s : state.
  Hypothesis F : forest cf s.
  Lemma count_all n : forall r cts it, remaining cf s r it -> Forall2 (at_slot s) r cts -> (length r < n)%nat ->
    iter_count cf n (st_contexts s) it = Ok (length r).
  Proof.
    induction n as [|n IH]; intros r cts it R Fa Hn; [lia|]. cbn [iter_count]. inversion Fa as [|y c r' cts' Hc Fr]; subst.
    - destruct (next_none cf s it R) as [E1 _]. destruct (iter_next cf (st_contexts s) it) as [o it']. cbn [fst] in E1. subst o. reflexivity.
    - destruct (next_some cf s F y r' it c R Hc) as [E1 E2].
      destruct (iter_next cf (st_contexts s) it) as [o it']. cbn [fst snd] in E1, E2. subst o.
      rewrite (IH r' cts' it' E2 Fr) by (cbn [length] in Hn; lia). reflexivity.
  Qed.
  Lemma nodes_ok i cts : lineage s i cts -> (length cts <= max_handles cf)%nat -> tci_nodes_new cf i (st_contexts s) = Ok tt.
  Proof.
    intros (l & Hp & Fa) HL. unfold tci_nodes_new. rewrite (iter_new_path cf s F i l Hp). cbn [rbind].
    assert (EL : length l = length cts) by (clear - Fa; induction Fa; cbn [length]; congruence).
    rewrite (count_all _ l cts _ (remaining_new cf s F i l Hp) Fa) by (destruct Hcf as (_ & _ & HF); lia). cbn [rbind].
    rewrite EL. destruct (Nat.ltb_spec (max_handles cf) (length cts)); [lia|reflexivity].
  Qed.
End Count.

Section Fail.
  Variable cf : config.
  Hypothesis Hcf : config_ok cf.
  Context {C P : Type}.
  Variable co : crypto_ops C.
  Variable po : platform_ops P.
  Notation world := (world C P).
  Notation drafted := (drafted cf C P co po).
  Hypothesis Hkeys : keys_fit cf co.
  Variables A B : N.
  Hypothesis Hnames : names_room po A B.
  Hypothesis HA : A <= 128.

  Definition faulty (e : dpe_error) : Prop :=
    (exists ce, e = CryptoErr ce /\ cert_fault cf co ce) \/ (exists pe, e = PlatformErr pe /\ names_fault po pe).

  Lemma crypto_err {X} (f : C -> (X + crypto_error) * C) (w : world) e w' : crypto f w = (Err e, w') ->
    exists ce c c', e = CryptoErr ce /\ f c = (inr ce, c').
  Proof.
    intros H. apply crypto_inv in H as (c' & _ & [(a & X0 & _)|(ce & X0 & Hc)]); [discriminate|]. injection X0 as ->. eauto 6.
  Qed.

  Lemma key_err k a d (w : world) e w' : derive_subject_key C P co k a d w = (Err e, w') -> faulty e.
  Proof.
    unfold derive_subject_key. destruct (kind_exported k).
    - intros H. apply bind_inv in H as [(h & w1 & _ & H)|[(e1 & E & H)|(k1 & _ & H)]]; [| |discriminate].
      2:{ injection H as ->. apply crypto_err in E as (ce & c & c' & -> & E). left. eexists. split; [reflexivity|]. right; right; left. eauto. }
      apply bind_inv in H as [(u & w2 & _ & H)|[(e1 & E & H)|(k1 & _ & H)]]; [| |discriminate].
      2:{ injection H as ->. apply crypto_err in E as (ce & c & c' & -> & E). left. eexists. split; [reflexivity|]. right; right; right; left. eauto 6. }
      apply bind_inv in H as [(pk & w3 & _ & H)|[(e1 & E & H)|(k1 & _ & H)]]; [| |discriminate].
      { apply ret_inv in H as [H _]. discriminate. }
      injection H as ->. apply crypto_err in E as (ce & c & c' & -> & E). left. eexists. split; [reflexivity|]. right; right; right; right; left. eauto.
    - intros H. apply bind_inv in H as [(pk & w1 & _ & H)|[(e1 & E & H)|(k1 & _ & H)]]; [| |discriminate].
      { apply ret_inv in H as [H _]. discriminate. }
      injection H as ->. apply crypto_err in E as (ce & c & c' & -> & E). left. eexists. split; [reflexivity|].
      unfold derive_pub_key, cseq in E.
      destruct (co_derive_cdi co d (ca_cdi_label a) c) as [[u|e1] c1] eqn:E1.
      2:{ injection E as -> _. right; left. left. eauto. }
      destruct (co_derive_key_pair co (ca_key_label a) (ca_context a) c1) as [[u2|e1] c2] eqn:E2.
      2:{ injection E as -> _. right; left. right; left. eauto. }
      right; right; right; right; left. eauto.
  Qed.

  Lemma hash_pubkey_err pk (w : world) e w' : hash_pubkey C P co pk w = (Err e, w') -> faulty e.
  Proof.
    unfold hash_pubkey. destruct pk as [x y|x y|b]; cbn [ecdsa_pub]; intros H;
      apply hash_all_err in H as (ce & -> & H); left; eexists; (split; [reflexivity|left; exact H]).
  Qed.

  Lemma digest_short d : (32 <= length (digest_bytes d) <= 48)%nat.
  Proof. destruct d; cbn [digest_bytes]; rewrite length_to_buf; lia. Qed.

  Lemma name_err k pk (w : world) e w' : key_of (prof cf) pk -> get_subject_name C P co k pk w = (Err e, w') -> faulty e.
  Proof.
    intros HK. unfold get_subject_name. intros H. apply bind_inv in H as [(s0 & w1 & _ & H)|[(e1 & E & H)|(k1 & _ & H)]]; [| |discriminate].
    { apply ret_inv in H as [H _]. discriminate. }
    injection H as ->. unfold get_pubkey_serial, bind in E.
    change (length (repeat 0 (max_hash_size * 2))) with 96%nat in E.
    destruct (Nat.ltb_spec 96 (digest_alg_size (co_digest_algorithm co (w_c w)) * 2)) as [L|L].
    { exfalso. destruct (co_digest_algorithm co (w_c w)); cbn [digest_alg_size] in L; lia. }
    destruct (alg_matches (co_signature_algorithm co (w_c w)) pk) eqn:EM; cbn [negb] in E.
    2:{ injection E as <- _. left. eexists. split; [reflexivity|]. do 6 right. split; [reflexivity|]. exists (w_c w).
        destruct (co_signature_algorithm co (w_c w)), (prof cf), pk; cbn [key_of alg_matches] in *; try contradiction; try discriminate; intros [X Y];
          first [discriminate (X eq_refl) | discriminate (Y eq_refl)]. }
    destruct (hash_pubkey C P co pk w) as [[d|e2|x] w2] eqn:E2; [| |discriminate].
    - unfold lift, write_hex_str in E. change (length (repeat 0 (max_hash_size * 2))) with 96%nat in E.
      pose proof (digest_short d). destruct (Nat.ltb_spec 96 (length (digest_bytes d) * 2)); [lia|discriminate].
    - injection E as -> _. eapply hash_pubkey_err. exact E2.
  Qed.
  Lemma ski_err pk (w : world) e w' : get_subject_key_identifier C P co pk w = (Err e, w') -> faulty e.
  Proof.
    unfold get_subject_key_identifier. intros H. apply bind_inv in H as [(d & w1 & _ & H)|[(e1 & E & H)|(k1 & _ & H)]]; [| |discriminate].
    - pose proof (digest_short d). destruct (Nat.ltb_spec (length (digest_bytes d)) max_key_identifier_size) as [L|L].
      + unfold max_key_identifier_size in L. lia.
      + apply ret_inv in H as [H _]. discriminate.
    - injection H as ->. eapply hash_pubkey_err. exact E.
  Qed.
  Lemma aki_err (w : world) e w' : get_authority_key_identifier C P po w = (Err e, w') -> faulty e.
  Proof.
    unfold get_authority_key_identifier. destruct (po_issuer_key_identifier po _ (w_p w)) as [[[u|e1] b] p] eqn:E; intros H; [discriminate|].
    injection H as <- _. right. eexists. split; [reflexivity|]. left. eauto 6.
  Qed.
  Lemma san_err (w : world) e w' : get_subject_alt_name C P po w = (Err e, w') -> faulty e.
  Proof.
    unfold get_subject_alt_name. destruct (po_subject_alt_name po (w_p w)) as [[u|e1] p] eqn:E; intros H; [discriminate|].
    right. exists e1. assert (X : e = PlatformErr e1 /\ e1 <> PENotImplemented).
    { destruct e1; try discriminate H; injection H as <- _; split; try reflexivity; discriminate. }
    destruct X as [-> X]. split; [reflexivity|]. right; left. eauto.
  Qed.
  Lemma issuer_err (w : world) e w' : get_issuer_name C P po w = (Err e, w') -> faulty e.
  Proof.
    unfold get_issuer_name. change max_issuer_name_size with 128%nat. destruct (po_issuer_name po (repeat 0 128) (w_p w)) as [[[n|e1] b] p] eqn:E; intros H.
    - exfalso. apply (proj1 Hnames) in E. change (N.of_nat 128) with 128 in H. destruct (N.ltb_spec 128 n); [lia|discriminate].
    - injection H as <- _. right. eexists. split; [reflexivity|]. do 4 right. eauto 6.
  Qed.

  Lemma subject_key_of k a d (w : world) pk h w' : derive_subject_key C P co k a d w = (Ok (pk, h), w') ->
    key_of (prof cf) pk /\ (kind_exported k = true -> exists x, h = Some x).
  Proof.
    unfold derive_subject_key. destruct (kind_exported k).
    - intros E2. apply bind_inv in E2 as [(h1 & w0 & _ & E2)|[(e & _ & X)|(e & _ & X)]]; [|discriminate..].
      apply bind_inv in E2 as [(u & w9 & _ & E2)|[(e & _ & X)|(e & _ & X)]]; [|discriminate..].
      apply bind_inv in E2 as [(pk1 & wa & E2 & E3)|[(e & _ & X)|(e & _ & X)]]; [|discriminate..].
      apply ret_inv in E3 as [E3 _]. apply ok_inj in E3. injection E3 as -> ->. split; [|eauto].
      apply crypto_inv in E2 as (c' & _ & [(a0 & X0 & Hc)|(ce & X0 & _)]); [|discriminate]. apply ok_inj in X0. subst a0. eapply Hkeys; exact Hc.
    - intros E2. apply bind_inv in E2 as [(pk1 & wa & E2 & E3)|[(e & _ & X)|(e & _ & X)]]; [|discriminate..].
      apply ret_inv in E3 as [E3 _]. apply ok_inj in E3. injection E3 as -> ->. split; [|discriminate].
      apply crypto_inv in E2 as (c' & _ & [(a0 & X0 & Hc)|(ce & X0 & _)]); [|discriminate]. apply ok_inj in X0. subst a0.
      unfold derive_pub_key, cseq in Hc. destruct (co_derive_cdi _ _ _ _) as [[u|e1] c1]; [|discriminate].
      destruct (co_derive_key_pair _ _ _ _) as [[u2|e1] c2]; [|discriminate]. eapply Hkeys; exact Hc.
  Qed.

  Lemma draft_err k a (w : world) e w' : wf cf (w_st w) -> draft_of cf C P co po k a w = (Err e, w') ->
    not_yours (w_st w) (ca_handle a) (ca_locality a) e \/
    exists i cts, first_slot (names (w_st w) (ca_handle a) (ca_locality a)) i /\ lineage (w_st w) i cts /\
      (no_measurement co po (w_st w) i e \/ faulty e).
  Proof.
    intros W H. unfold draft_of in H. rewrite bind_get_st in H.
    apply bind_lift_inv in H as [(i & E0 & H)|[(e1 & E0 & X & _)|(e1 & _ & X & _)]]; [| |discriminate].
    2:{ injection X as ->. left. apply lookup_explained. exact E0. }
    right. pose proof (proj1 (lookup_ok _ _ _ _) E0) as HF. destruct (lookup_lineage cf _ _ _ _ W HF) as (cts & HL).
    exists i, cts. split; [exact HF|]. split; [exact HL|].
    apply bind_inv in H as [(d & w1 & E1 & H)|[(e1 & E1 & X)|(e1 & _ & X)]]; [| |discriminate].
    2:{ injection X as ->. left. assert (LV : live_at (w_st w) i).
        { destruct HF as [(c & Hc & HN & _) _]. exists c. split; [exact Hc|]. unfold live. rewrite HN. discriminate. }
        destruct (cmh_err cf Hcf C P co po i w _ _ W LV E1) as [(dg & X)|[(e2 & X & HN)|(k2 & X & _)]]; try discriminate.
        injection X as ->. exact HN. }
    right.
    destruct (blind_keeps _ (blind_cmh cf C P co po i) _ _ _ E1) as [K1 _].
    apply bind_inv in H as [([pk h] & w2 & E2 & H)|[(e1 & E2 & X)|(e1 & _ & X)]]; [| |discriminate].
    2:{ injection X as ->. eapply key_err; exact E2. }
    destruct (blind_keeps _ (blind_subject_key C P co k a d) _ _ _ E2) as [K2 _].
    apply subject_key_of in E2 as [HK _]. cbv zeta in H. cbn [fst snd] in H.
    apply bind_inv in H as [(subject & w3 & E3 & H)|[(e1 & E3 & X)|(e1 & _ & X)]]; [| |discriminate].
    2:{ injection X as ->. eapply name_err; [exact HK|exact E3]. }
    destruct (blind_keeps _ (blind_subject_name C P co k pk) _ _ _ E3) as [K3 _].
    apply bind_inv in H as [(ski & w4 & E4 & H)|[(e1 & E4 & X)|(e1 & _ & X)]]; [| |discriminate].
    2:{ injection X as ->. eapply ski_err; exact E4. }
    destruct (blind_keeps _ (blind_ski C P co pk) _ _ _ E4) as [K4 _].
    apply bind_inv in H as [(aki & w5 & E5 & H)|[(e1 & E5 & X)|(e1 & _ & X)]]; [| |discriminate].
    2:{ injection X as ->. eapply aki_err; exact E5. }
    destruct (blind_keeps _ (blind_aki C P po) _ _ _ E5) as [K5 _].
    apply bind_inv in H as [(san & w6 & E6 & H)|[(e1 & E6 & X)|(e1 & _ & X)]]; [| |discriminate].
    2:{ injection X as ->. eapply san_err; exact E6. }
    destruct (blind_keeps _ (blind_san C P po) _ _ _ E6) as [K6 _].
    rewrite bind_get_st in H. assert (ES : w_st w6 = w_st w) by congruence. rewrite ES in H.
    apply bind_lift_inv in H as [(j & E7 & H)|[(e1 & E7 & X & _)|(e1 & _ & X & _)]]; [| |discriminate].
    2:{ congruence. }
    assert (j = i) by congruence. subst j.
    rewrite (nodes_ok cf Hcf (w_st w) (wf_forest _ _ W) i cts HL (proj2 (lineage_bound _ _ _ _ W HL))) in H.
    apply bind_lift_inv in H as [(u & _ & H)|[(e1 & X & _)|(e1 & X & _)]]; [|discriminate..].
    apply bind_inv in H as [(v & w7 & E8 & H)|[(e1 & E8 & X)|(e1 & _ & X)]]; [| |discriminate].
    2:{ injection X as ->. apply platform_inv in E8 as (c' & _ & [(x & X & _)|(pe & X & Hc)]); [discriminate|]. injection X as ->.
        right. eexists. split; [reflexivity|]. right; right; left. eauto. }
    apply bind_inv in H as [(sid & w8 & E9 & H)|[(e1 & E9 & X)|(e1 & _ & X)]]; [| |discriminate].
    2:{ injection X as ->. apply platform_inv in E9 as (c' & _ & [(x & X & _)|(pe & X & Hc)]); [discriminate|]. injection X as ->.
        right. eexists. split; [reflexivity|]. right; right; right; left. eauto. }
    apply bind_inv in H as [(issuer & w9 & E10 & H)|[(e1 & E10 & X)|(e1 & _ & X)]]; [| |discriminate].
    - apply ret_inv in H as [H _]. discriminate.
    - injection X as ->. destruct (kind_csr k); [apply ret_inv in E10 as [E10 _]; discriminate|]. eapply issuer_err; exact E10.
  Qed.

  (** ** The writer *)
  Hypothesis Hsigs : signatures_fit cf co.
  Hypothesis HB : B <= 100.

  Lemma willing_sig k a x data der c :
    exists g c', willing (prof cf) (draft_cb C co k a x) data der c = (inl g, c') /\ sig_of (prof cf) g.
  Proof.
    unfold willing. destruct (draft_cb C co k a x data der c) as [[g|e] c'] eqn:E.
    - exists g, c'. split; [reflexivity|]. eapply draft_cb_sig; [exact Hsigs|exact E].
    - exists (any_sig (prof cf)), c'. split; [reflexivity|]. destruct (prof cf); exact I.
  Qed.

  (** Failed signing is a fault of the back end. *)
  Lemma cb_err k a x data der c e c' : (kind_exported k = true -> exists h, dr_exported x = Some h) ->
    draft_cb C co k a x data der c = (inr e, c') -> cert_fault cf co e.
  Proof.
    intros HX. unfold draft_cb, sign_cb. destruct der.
    - destruct (kind_exported k).
      + destruct (HX eq_refl) as (h & ->). unfold cseq.
        destruct (co_derive_key_pair_exported co h (ca_key_label a) (ca_context a) c) as [[u|e1] c1] eqn:E1; intros H.
        * right; left. right; right. eauto.
        * injection H as -> _. right; right; right; left. eauto 6.
      + unfold sign_with_derived, cseq.
        destruct (co_derive_cdi co (dr_digest x) (ca_cdi_label a) c) as [[u|e1] c1] eqn:E1; intros H.
        2:{ injection H as -> _. right; left. left. eauto. }
        destruct (co_derive_key_pair co (ca_key_label a) (ca_context a) c1) as [[u2|e1] c2] eqn:E2.
        2:{ injection H as -> _. right; left. right; left. eauto. }
        right; left. right; right. eauto.
    - intros H. do 5 right. left. eauto.
  Qed.

  Lemma writer_cases k a x (w wd : world) i cts buf c r w' :
    drafted k a x w wd -> wf cf (w_st w) ->
    first_slot (names (w_st w) (ca_handle a) (ca_locality a)) i -> lineage (w_st w) i cts -> len (ca_ueid a) <= 48 ->
    draft_write cf C co k a (w_st w) x (cw_new buf c) = (r, w') ->
    (exists ce, r = Err (CryptoErr ce) /\ exists d b c c', draft_cb C co k a x d b c = (inr ce, c')) \/
    exists bs, len bs <= longest cf A B k (w_st w) cts (len (ca_ueid a)) /\
      (r = Ok (len bs) \/ (r = Err (InternalError CertSizeOverflow) /\ len buf < len bs)).
  Proof.
    intros HD W HF HL HU H.
    pose proof (drafted_bytes _ _ _ _ _ _ _ _ _ _ HD) as BY. pose proof (drafted_names _ _ _ _ _ Hnames _ _ _ _ _ HD) as (N1 & N2 & N3).
    pose proof (drafted_key cf co po _ _ _ _ _ Hkeys HD) as HK. pose proof (drafted_idx cf co po _ _ _ _ _ _ HD HF) as EI.
    destruct (db_subject _ _ BY) as (dg & Esub). pose proof (lineage_bound _ _ _ _ W HL) as LB. pose proof Hcf as (HM & _).
    set (cb' := willing (prof cf) (draft_cb C co k a x)).
    assert (WS : forall data der c0 g c', cb' data der c0 = (inl g, c') -> sig_of (prof cf) g).
    { intros data der c0 g c' E. destruct (willing_sig k a x data der c0) as (g1 & c1 & E1 & HG). unfold cb' in E. rewrite E1 in E. injection E as -> _. exact HG. }
    assert (HSki : len (dr_ski x) = 20) by (unfold len; rewrite (proj2 (db_ski _ _ BY)); reflexivity).
    assert (HAki : len (dr_aki x) = 20) by (unfold len; rewrite (proj2 (db_aki _ _ BY)); reflexivity).
    assert (HNm : len (E (name_der (dr_subject x))) = if md_is_ca (draft_md k a (w_st w) x) then 104 else 96).
    { rewrite Esub. cbn [draft_md md_is_ca]. apply name_room, subject_length. }
    assert (FIN : forall f : gen C, forall bs0 c0 r0 (w0 : cw C), outcome true f (cw_new buf c) r0 w0 -> f c = (Ok bs0, c0) ->
              len bs0 <= longest cf A B k (w_st w) cts (len (ca_ueid a)) ->
              exists bs, len bs <= longest cf A B k (w_st w) cts (len (ca_ueid a)) /\
                (r0 = Ok (len bs) \/ (r0 = Err (InternalError CertSizeOverflow) /\ len buf < len bs))).
    { intros f bs0 c0 r0 w0 O Hf HLn. exists bs0. split; [exact HLn|].
      inversion O as [b1 c1 w1 Hf' K Pb Hk Eo Eb Es Ec|e c1 w1 Hf'|y c1 w1 Hf'|w1 K Hn]; subst; cbn [cw_new cw_c] in *; try congruence.
      - left. rewrite Hf in Hf'. injection Hf' as <- _. reflexivity.
      - right. split; [reflexivity|]. specialize (Hn _ _ Hf). unfold fits in Hn. cbn [cw_new cw_off cw_buf] in Hn. lia. }
    unfold draft_write in H. destruct (kind_csr k) eqn:HC.
    - assert (HX : kind_exported k = false) by (destruct k; try reflexivity; discriminate HC).
      assert (HSid : match dr_sid x with IssuerAndSerialNumber i0 n0 => len i0 <= A /\ len n0 <= 20 | SubjectKeyIdentifier k0 => len k0 <= 20 end).
      { pose proof (db_sid _ _ BY) as DS. destruct (dr_sid x) as [i0 n0|k0]; unfold len in *; [split; [exact N3|]|]; lia. }
      destruct (alike_cms (prof cf) (draft_cb C co k a x) cf (ca_critical a) (dr_pubkey x) (dr_subject x) (draft_md k a (w_st w) x) (dr_sid x) (cw_new buf c))
        as [(ce & w1 & E0 & Hce)|E0].
      { left. rewrite E0 in H. injection H as <- _. eauto. }
      right. rewrite <- E0 in H. fold cb' in H.
      pose proof (runs_cms cf (ca_critical a) C cb' (dr_pubkey x) (dr_subject x) (draft_md k a (w_st w) x) (dr_sid x) 2
                    _ (cw_new buf c) (runs_csr cf C cb' (ca_critical a) (draft_md k a (w_st w) x) (dr_subject x) (dr_pubkey x))
                    ltac:(unfold max_backtracks; lia) eq_refl eq_refl) as O.
      unfold outc in O. rewrite H in O. cbn [fst snd] in O.
      destruct (message_total cf Hcf (w_st w) W i cts HL (draft_md k a (w_st w) x) eq_refl EI cb' (willing_sig k a x)
                  (ca_critical a) (dr_subject x) (dr_pubkey x) (len (ca_ueid a)) B HK ltac:(lia) ltac:(cbn [draft_md md_label]; lia) HU
                  HSki HAki N2 HB HNm (dr_sid x) A c HX HSid HA) as (bs & c' & Hf).
      pose proof (message_len cf Hcf (w_st w) W i cts HL (draft_md k a (w_st w) x) eq_refl EI cb' WS
                  (ca_critical a) (dr_subject x) (dr_pubkey x) (len (ca_ueid a)) B HK ltac:(lia) ltac:(cbn [draft_md md_label]; lia) HU
                  HSki HAki N2 HB) as Q.
      rewrite HNm in Q. cbn [draft_md md_is_ca] in Q. rewrite HX in Q. specialize (Q eq_refl (dr_sid x) A c bs c' eq_refl HSid HA Hf). 
      apply (FIN _ bs c' _ _ O Hf). unfold longest, chain_max. rewrite HC. cbn [draft_md md_recursive] in Q. rewrite HX in Q |- *. lia.
    - specialize (N1 eq_refl).
      destruct (alike_certificate (prof cf) (draft_cb C co k a x) cf (ca_critical a) (firstn 20 (ds_bytes (nm_serial (dr_subject x))))
                  (dr_issuer x) (dr_subject x) (dr_pubkey x) (draft_md k a (w_st w) x) (dr_validity x) (cw_new buf c))
        as [(ce & w1 & E0 & Hce)|E0].
      { left. rewrite E0 in H. injection H as <- _. eauto. }
      right. rewrite <- E0 in H. fold cb' in H.
      pose proof (runs_certificate cf C cb' (ca_critical a) (draft_md k a (w_st w) x)
                    (firstn 20 (ds_bytes (nm_serial (dr_subject x)))) (dr_issuer x) (dr_subject x) (dr_pubkey x) (dr_validity x)
                    (cw_new buf c) eq_refl) as O.
      specialize (O ltac:(cbn [cw_new cw_back length]; unfold max_backtracks; lia)). unfold outc in O. rewrite H in O. cbn [fst snd] in O.
      assert (HSer : len (firstn 20 (ds_bytes (nm_serial (dr_subject x)))) <= 20) by (unfold len; rewrite firstn_length; lia).
      assert (HV1 : len (cv_not_before (dr_validity x)) <= 24) by (unfold len; pose proof (db_validity _ _ BY); lia).
      assert (HV2 : len (cv_not_after (dr_validity x)) <= 24) by (unfold len; pose proof (db_validity _ _ BY); lia).
      destruct (cert_total cf Hcf (w_st w) W i cts HL (draft_md k a (w_st w) x) eq_refl EI cb' (willing_sig k a x)
                  (ca_critical a) (dr_subject x) (dr_pubkey x) (len (ca_ueid a)) B HK ltac:(lia) ltac:(cbn [draft_md md_label]; lia) HU
                  HSki HAki N2 HB HNm _ (dr_issuer x) (dr_validity x) c HSer ltac:(lia) HV1 HV2) as (bs & c' & Hf).
      pose proof (cert_len cf Hcf (w_st w) W i cts HL (draft_md k a (w_st w) x) eq_refl EI cb' WS
                  (ca_critical a) (dr_subject x) (dr_pubkey x) (len (ca_ueid a)) B HK ltac:(lia) ltac:(cbn [draft_md md_label]; lia) HU
                  HSki HAki N2 HB HNm _ _ _ _ _ _ HSer HV1 HV2 Hf) as Q.
      apply (FIN _ bs c' _ _ O Hf). unfold longest, chain_max. rewrite HC. cbn [draft_md md_recursive md_is_ca] in Q. destruct (kind_exported k); lia.
  Qed.

  Lemma longest_small k s i cts u : wf cf s -> lineage s i cts -> u <= 48 -> longest cf A B k s cts u < 2 ^ 32.
  Proof.
    intros W HL HU. pose proof (lineage_bound _ _ _ _ W HL) as LB. destruct Hcf as (HM & _). unfold longest, chain_max, info_max, alg_max, spki_max, bits_max, octets_max.
    destruct (N.leb _ 32), (if kind_exported k then _ else _), (prof cf), (kind_csr k), (kind_exported k); lia.
  Qed.

  (** ** The complete list *)
  Theorem create_cert_reasons k a off (w : world) e w' : wf cf (w_st w) -> len (ca_ueid a) <= 48 ->
    create_cert cf C P co po k a off w = (Err e, w') ->
    cert_refusal cf co po A B k (ca_handle a) (ca_locality a) (w_st w) (len (ca_ueid a)) (len (w_out w) - N.of_nat off) e.
  Proof.
    intros W HU H. rewrite create_cert_draft in H.
    apply bind_inv in H as [(x & wd & E0 & H)|[(e1 & E0 & X)|(e1 & E0 & X)]]; [| |discriminate].
    2:{ injection X as ->. apply draft_err in E0 as [HN|(i & cts & HF & HL & [HN|[HN|HN]])]; [left; exact HN|..|exact W]; right; exists i, cts; auto 8. }
    right. apply draft_inv in E0 as (HD & HS & HO). rewrite bind_get_st, HS in H.
    assert (HF : first_slot (names (w_st w) (ca_handle a) (ca_locality a)) (dr_idx x)).
    { destruct HD as (w1 & w2 & w3 & w4 & w5 & w6 & w7 & w8 & v & sid & E0 & _). apply lookup_ok. exact E0. }
    destruct (lookup_lineage cf _ _ _ _ W HF) as (cts & HL). exists (dr_idx x), cts. split; [exact HF|]. split; [exact HL|].
    assert (HX : kind_exported k = true -> exists h, dr_exported x = Some h).
    { destruct HD as (w1 & w2 & w3 & w4 & w5 & w6 & w7 & w8 & v & sid & _ & _ & E2 & _). apply subject_key_of in E2. apply E2. }
    apply bind_inv in H as [(n & w1 & E1 & H)|[(e1 & E1 & X)|(e1 & _ & X)]]; [| |discriminate];
      unfold run_writer in E1; rewrite HO in E1;
      destruct (draft_write cf C co k a (w_st w) x (cw_new (skipn off (w_out w)) (w_c wd))) as [r wr] eqn:EW;
      apply (f_equal fst) in E1; cbn [fst] in E1; subst r;
      apply (writer_cases _ _ _ _ _ _ _ _ _ _ _ HD W HF HL HU) in EW as [(ce & E1 & d & b & c & c' & HE)|(bs & HLn & [E1|[E1 HR]])];
      try discriminate.
    - exfalso. apply ok_inj in E1. subst n. unfold draft_result in H.
      pose proof (longest_small k (w_st w) _ cts _ W HL HU) as S0.
      apply bind_lift_inv in H as [(m & E2 & H)|[(e1 & E2 & X & _)|(e1 & _ & X & _)]]; [| |discriminate].
      + destruct (kind_exported k).
        * destruct (HX eq_refl) as (h & Eh). rewrite Eh in H. apply bind_lift_inv in H as [(h1 & E3 & H)|[(e1 & E3 & X & _)|(e1 & _ & X & _)]]; try discriminate.
        * rewrite bind_ret in H. apply ret_inv in H as [H _]. discriminate.
      + unfold to_u32 in E2. destruct (N.ltb_spec (len bs) (2 ^ 32)); [discriminate|lia].
    - injection X as ->. injection E1 as ->. right; left. eexists. split; [reflexivity|]. eapply cb_err; eassumption.
    - injection X as ->. injection E1 as ->. right; right; right. split; [reflexivity|].
      replace (len (w_out w) - N.of_nat off) with (len (skipn off (w_out w))) by (unfold len; rewrite skipn_length; lia). lia.
  Qed.
End Fail.

(** ** The commands *)

(** A writer that never fails, and answers a key of the profile. *)
Definition obliging (cf : config) {C P : Type} (k : cert_kind) (a : cert_args) (off : nat) (s : state) (c : C) (p : P) (out : bytes)
  : result cert_result * C * P * bytes :=
  (Ok {| cr_size := 0;
         cr_pubkey := match prof cf with P256Sha256 => PkEcdsa256 [] [] | P384Sha384 => PkEcdsa384 [] [] | Mldsa87 => PkMldsa [] end;
         cr_exported := [] |}, c, p, out).

Section Commands.
  Variable cf : config.
  Hypothesis Hcf : config_ok cf.
  Context {C P : Type}.
  Variable co : crypto_ops C.
  Variable po : platform_ops P.
  Notation exec := (exec_command cf C P co po (x509_gen cf C P co po)).

  (** The certificate or request that belongs to the response could not be made. *)
  Definition writer_refusal (A B : N) (cmd : command) (loc : N) (s : state) (room : nat) (e : dpe_error) : Prop :=
    let left := N.of_nat room - N.of_nat (fixed_size cf cmd) in
    match cmd with
    | CmdCertifyKey (CertifyP256 h) | CmdCertifyKey (CertifyP384 h) | CmdCertifyKey (CertifyMldsa87 h) =>
        (ck_format h = 0 /\ cert_refusal cf co po A B KindX509 (ck_handle h) loc s (len (ck_label h)) left e) \/
        (ck_format h = 1 /\ cert_refusal cf co po A B KindCsr (ck_handle h) loc s (len (ck_label h)) left e)
    | CmdDeriveContext d =>
        N.testbit (dc_flags d) 23 = true /\ exists u, u <= 48 /\ cert_refusal cf co po A B KindExported (dc_handle d) loc s u left e
    | _ => False
    end.

  Hypothesis Hkeys : keys_fit cf co.
  Hypothesis Hsigs : signatures_fit cf co.
  Variables A B : N.
  Hypothesis Hnames : names_room po A B.
  Hypothesis HA : A <= 128.
  Hypothesis HB : B <= 100.

  Lemma gen_reasons k a off s c p out e c' p' out' : wf cf s -> len (ca_ueid a) <= 48 ->
    x509_gen cf C P co po k a off s c p out = (Err e, c', p', out') ->
    cert_refusal cf co po A B k (ca_handle a) (ca_locality a) s (len (ca_ueid a)) (len out - N.of_nat off) e.
  Proof.
    intros W HU H. unfold x509_gen in H. destruct (create_cert cf C P co po k a off (mkWorld s c p out)) as [r w'] eqn:E.
    injection H as -> _ _ _. exact (create_cert_reasons cf Hcf co po Hkeys A B Hnames HA Hsigs HB k a off (mkWorld s c p out) e w' W HU E).
  Qed.

  Lemma gen_key k a off s c p out cr c' p' out' :
    x509_gen cf C P co po k a off s c p out = (Ok cr, c', p', out') -> key_of (prof cf) (cr_pubkey cr).
  Proof.
    intros H. unfold x509_gen in H. destruct (create_cert cf C P co po k a off (mkWorld s c p out)) as [r w'] eqn:E.
    injection H as -> _ _ _. apply made_inv in E as (x & wd & n & wr & HD & _ & _ & _ & _ & _ & Ek & _). rewrite Ek. eapply drafted_key; eassumption.
  Qed.

  Theorem command_reasons cmd loc w e w' : wf cf (w_st w) -> command_wf cf cmd -> exec cmd loc w = (Err e, w') ->
    refusal cf co po (obliging cf) cmd loc (w_st w) (w_st w') (length (w_out w)) e \/
    writer_refusal A B cmd loc (w_st w) (length (w_out w)) e.
  Proof.
    intros W HW H. apply (command_explained cf Hcf C P co po _ (x509_keeps_size cf co po)) in H; [|exact W]. cbn [explained] in H.
    destruct H as [H|H]; [left; left; exact H|]. unfold writer_refusal.
    destruct cmd as [|f|d|c|c|h f|h|off size|u]; try (left; right; exact H).
    - destruct H as [H|[H|(i & x & HF & Hx & H)]]; [left; right; left; exact H|left; right; right; left; exact H|].
        destruct H as [H|H]; [left; right; right; right; exists i, x; auto|].
      destruct (N.testbit (dc_flags d) 24) eqn:B24.
      { left; right; right; right. exists i, x. split; [exact HF|]. split; [exact Hx|]. rewrite B24. right. exact H. }
      destruct H as [H|H].
      { left; right; right; right. exists i, x. split; [exact HF|]. split; [exact Hx|]. rewrite B24. right. left. exact H. }
      destruct (N.testbit (dc_flags d) 23) eqn:B23.
      2:{ left; right; right; right. exists i, x. split; [exact HF|]. split; [exact Hx|]. rewrite B24, B23. right. right. exact H. }
      destruct H as [H|(a & b & p & out & c' & p' & out' & Lo & E1 & E2 & E3 & E4)].
      { left; right; right; right. exists i, x. split; [exact HF|]. split; [exact Hx|]. rewrite B24, B23. right. right. left. exact H. }
      right. split; [reflexivity|]. assert (HU : len (ca_ueid a) <= 48) by (unfold len; lia). exists (len (ca_ueid a)). split; [exact HU|].
      apply gen_reasons in E4; [|exact W|exact HU]. rewrite E1, E2 in E4. cbn [fixed_size]. rewrite B23, <- Lo. exact E4.
    - destruct H as (k & h & -> & Hk & [H|(i & x & HF & Hx & H)]).
      { left; right. exists k, h. split; [reflexivity|]. split; [exact Hk|]. left. exact H. }
      assert (HU : len (ck_label h) <= 48).
      { destruct Hk as [-> | [-> | ->]]; cbn [command_wf] in HW; destruct HW as (_ & _ & _ & HC & _); unfold len; lia. }
      destruct H as [H|[H|[(a & b & p & out & c' & p' & out' & Lo & HFm & E1 & E2 & E3 & E4)|[H|(-> & kd & a & b & p & out & cr & c' & p' & out' & E4 & HM)]]]].
      + left; right. exists k, h. split; [reflexivity|]. split; [exact Hk|]. right. exists i, x. auto.
      + left; right. exists k, h. split; [reflexivity|]. split; [exact Hk|]. right. exists i, x. auto.
      + apply gen_reasons in E4; [|exact W|rewrite E3; exact HU]. rewrite E1, E2, E3 in E4. unfold len in E4 at 2. rewrite Lo in E4.
        destruct (N.eqb_spec (ck_format h) 0) as [F0|F0].
        * right. destruct Hk as [-> | [-> | ->]]; left; split; try exact F0; exact E4.
        * right. assert (F1 : ck_format h = 1) by lia. destruct Hk as [-> | [-> | ->]]; right; split; try exact F1; exact E4.
      + left; right. exists k, h. split; [reflexivity|]. split; [exact Hk|]. right. exists i, x. auto 8.
      + left; right. exists k, h. split; [reflexivity|]. split; [exact Hk|]. right. exists i, x. split; [exact HF|]. split; [exact Hx|].
        do 4 right. split; [reflexivity|]. exists kd, a, b, p, out. unfold obliging. do 4 eexists. split; [reflexivity|]. cbn [cr_pubkey].
        apply gen_key in E4. destruct Hk as [-> | [-> | ->]], (prof cf), (cr_pubkey cr); cbn [key_of] in E4; try contradiction; exact I.
  Qed.

  (** ** Availability *)
  Hypothesis Hsizes : sizes_chosen cf.
  Hypothesis HAB : A + B <= 97.

  Lemma longest_fits k s i cts u : wf cf s -> lineage s i cts -> u <= 48 ->
    (prof cf = P256Sha256 -> kind_exported k = false -> u <= 32) -> (kind_csr k = true -> (length cts < max_handles cf)%nat) ->
    longest cf A B k s cts u <= max_cert_size cf.
  Proof.
    intros W HL HU HP HC. pose proof (lineage_bound _ _ _ _ W HL) as LB. pose proof (max_cert_room cf) as R. destruct Hcf as (HM & HE & _).
    unfold longest, chain_max, info_max, tci_size, alg_max, spki_max, bits_max, octets_max, sizes_chosen, profile_enabled in *.
    clear - R Hsizes HE LB HAB HU HP HC HM.
    destruct k; cbn [kind_csr kind_exported] in *; try specialize (HC eq_refl);
    destruct (prof cf), (feat_p256 cf), (feat_p384 cf), (feat_mldsa cf); cbn [orb andb] in *; try discriminate HE; try (destruct Hsizes; discriminate);
      try specialize (HP eq_refl eq_refl);
      try destruct (sup_recursive _); change (N.leb (N.of_nat 48) 32) with false; change (N.leb (N.of_nat 32) 32) with true; cbv iota; lia.
  Qed.

  (** Nothing in the environment fails; what the writer of certificates needs comes on
      top of what the commands need. *)
  Definition healthy : Prop :=
    dependable cf co po (obliging cf) 0 /\ (forall e, ~ cert_fault cf co e) /\ (forall e, ~ names_fault po e).

  Lemma no_cert_refusal k h loc s u room e i : healthy -> wf cf s -> names s h loc i -> u <= 48 ->
    (forall i cts, first_slot (names s h loc) i -> lineage s i cts -> longest cf A B k s cts u <= room) ->
    ~ cert_refusal cf co po A B k h loc s u room e.
  Proof.
    intros (D & HC & HN) W Hi HU HR [[X _]|(j & cts & HF & HL & [X|[(ce & _ & X)|[(pe & _ & X)|(_ & X)]]])].
    - exact (X i Hi).
    - exact (no_meas cf co po _ _ D _ _ _ X).
    - exact (HC _ X).
    - exact (HN _ X).
    - specialize (HR j cts HF HL). lia.
  Qed.

  Theorem x509_available cmd loc w r w' : healthy -> wf cf (w_st w) -> command_wf cf cmd -> legitimate cf po cmd loc (w_st w) ->
    (fixed_size cf cmd <= length (w_out w))%nat -> (response_size cf cmd <= length (w_out w))%nat ->
    (asks_request cmd -> forall h i cts, presents cmd h -> first_slot (names (w_st w) h loc) i -> lineage (w_st w) i cts -> (length cts < max_handles cf)%nat) ->
    exec cmd loc w = (r, w') ->
    (exists n, r = Ok n) \/ (needs_handle cmd loc (w_st w) /\ exists e, r = Err e /\ no_handle co (w_st w') e).
  Proof.
    intros HH W HW L R1 R2 HQ H. pose proof HH as (D & _ & _). destruct r as [n|e|k].
    - left; eauto.
    - right. apply command_reasons in H; [|exact W|exact HW]. destruct H as [H|H].
      + assert (R0 : (room_for cf 0 cmd <= length (w_out w))%nat).
        { unfold room_for. destruct cmd as [| |d| | | | | |]; try lia. destruct (N.testbit (dc_flags d) 23); lia. }
        destruct (refused_why cf co po (obliging cf) 0 D _ _ _ _ _ _ L R0 H) as [X Y]. split; [exact X|eauto].
      + exfalso. unfold writer_refusal in H. cbv zeta in H.
        assert (RR : asks_certificate cmd \/ asks_request cmd -> fixed_size cf cmd = output_start cmd ->
                  max_cert_size cf <= N.of_nat (length (w_out w)) - N.of_nat (fixed_size cf cmd)).
        { intros HA0 E0. rewrite (room_of cf cmd HA0) in R2. rewrite E0. lia. }
        destruct cmd as [|f|d|c|c|h f|h|off size|u]; try contradiction.
        * destruct H as (B23 & u & HU & H). cbn [legitimate] in L. destruct L as (_ & i & x & [[M1 _] _] & NB & L).
          assert (B24 : N.testbit (dc_flags d) 24 = false).
          { destruct (N.testbit (dc_flags d) 24) eqn:B24; [|reflexivity]. exfalso. apply NB. unfold bad_request. rewrite B23, B24. tauto. }
          revert H. apply (no_cert_refusal _ _ _ _ _ _ _ i HH W M1 HU). intros j cts HF HL.
          assert (Q : longest cf A B KindExported (w_st w) cts u <= max_cert_size cf).
          { apply (longest_fits _ _ j); auto; cbn [kind_exported kind_csr]; discriminate. }
          etransitivity; [exact Q|]. apply RR; [left; split; assumption|]. cbn [fixed_size output_start]. rewrite B23. reflexivity.
        * destruct L as (hh & i & x & HPr & M & L).
          assert (Core : forall h kd, hh = ck_handle h -> len (ck_label h) <= 48 -> (prof cf = P256Sha256 -> len (ck_label h) <= 32) ->
                    kind_exported kd = false -> (kind_csr kd = true -> asks_request (CmdCertifyKey c)) ->
                    fixed_size cf (CmdCertifyKey c) = output_start (CmdCertifyKey c) ->
                    asks_certificate (CmdCertifyKey c) \/ asks_request (CmdCertifyKey c) ->
                    ~ cert_refusal cf co po A B kd (ck_handle h) loc (w_st w) (len (ck_label h)) (N.of_nat (length (w_out w)) - N.of_nat (fixed_size cf (CmdCertifyKey c))) e).
          { intros h kd Eh U48 U32 Hx Hr E0 HA0. subst hh. apply (no_cert_refusal _ _ _ _ _ _ _ i HH W (proj1 (proj1 M)) U48). intros j cts HF HL.
            etransitivity; [|apply RR; assumption]. apply (longest_fits _ _ j); auto. intros Hc. exact (HQ (Hr Hc) _ _ _ HPr HF HL). }
          destruct c as [h|h|h]; cbn [presents] in HPr; cbn [command_wf] in HW; destruct HW as (_ & _ & _ & HC & _);
            (destruct H as [[F0 H]|[F1 H]]; [revert H; apply (Core h KindX509)|revert H; apply (Core h KindCsr)]);
            try exact HPr; try reflexivity; try discriminate; try (unfold len; lia); try (left; exact F0); try (right; cbn [asks_request]; lia);
            try (intros _; cbn [asks_request]; lia);
            try (intros EP; rewrite EP in L; contradiction);
            try (cbn [fixed_size output_start]; lia).
    - exfalso. apply (command_explained cf Hcf C P co po _ (x509_keeps_size cf co po)) in H; [|exact W]. cbn [explained] in H.
      assert (NC : forall kd a o s b p out k c' p' out', x509_gen cf C P co po kd a o s b p out <> (Crash k, c', p', out')).
      { apply x509_returns; [exact Hcf|]. exact (dep_chain _ _ _ _ _ D). }
      destruct cmd; cbn [aborts] in H; try exact H.
      + destruct H as (_ & a & o & b & p & out & c' & p' & out' & X). eapply NC; exact X.
      + destruct H as (kd & a & o & b & p & out & c' & p' & out' & X). eapply NC; exact X.
      + destruct H as (h & i & _ & _ & _ & p & X). apply X. apply (dep_chain _ _ _ _ _ D).
  Qed.
End Commands.
