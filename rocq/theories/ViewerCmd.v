(** ViewerCmd.v -- the viewer and the certificates and requests that [create_cert] makes. *)
From Verif Require Import Base Errors Types StateOps Env Wire Instance Commands Lib Spec Exec Effects Forest History Contract Codec Steps Reach CommandSpecs
  Responses Execute Walk Measure Der DerProofs X509 X509Cert X509Run X509Spec X509Bytes X509Proper X509Gen X509Out X509Read
  X509ReadOk X509Made X509Total X509Sane X509Cmd X509Facts X509Size Viewer ViewerProofs.
Open Scope N_scope.

Lemma flat_unique a b : proper a -> proper b -> small a -> enc a = enc b -> flat a = flat b.
Proof.
  intros PA PB SA E. assert (SB : small b) by (unfold small in *; rewrite <- E; exact SA).
  pose proof (decode_enc a PA SA) as EA. rewrite E, (decode_enc b PB SB) in EA. congruence.
Qed.

(** ** What the platform must deliver for the viewer's parsers *)

(** Issuer names that are Names, and signers named by Names if by name. *)
Definition issuer_named {P} (po : platform_ops P) : Prop :=
  forall p n b p', po_issuer_name po (repeat 0 128) p = (inl n, b, p') ->
    exists idn, proper idn /\ enc idn = firstn (N.to_nat n) (to_buf 128 b) /\ name_ok (flat idn) = true.
Definition signer_named {P} (po : platform_ops P) : Prop :=
  forall p sid p', po_signer_identifier po p = (inl sid, p') ->
    match cap_sid sid with
    | IssuerAndSerialNumber i n => (exists idn, proper idn /\ enc idn = i /\ name_ok (flat idn) = true) /\ n <> []
    | SubjectKeyIdentifier _ => True
    end.
(** Dates that the viewer's parser accepts as GeneralizedTime. *)
Definition valid_times {P} (po : platform_ops P) (time : N -> bytes -> bool) : Prop :=
  forall p v p', po_cert_validity po p = (inl v, p') ->
    time 0x18 (cv_not_before (cap_validity v)) = true /\ time 0x18 (cv_not_after (cap_validity v)) = true.
Lemma issuer_named_der {P} (po : platform_ops P) : issuer_named po -> issuer_der po.
Proof. intros H p n b p' E. destruct (H _ _ _ _ E) as (idn & A & B & _). eauto. Qed.
Lemma signer_named_der {P} (po : platform_ops P) : signer_named po -> signer_der po.
Proof.
  intros H p sid p' E. specialize (H _ _ _ E). destruct (cap_sid sid); [|exact Logic.I].
  destruct H as ((idn & A & B & _) & D). eauto.
Qed.

Lemma serial_min d : let s := firstn 20 (subject_serial d) in
  be_min (be_val s) = s /\ be_val s <> 0 /\ Forall (fun b => 48 <= b < 128) s /\ length s = 20%nat.
Proof.
  cbv zeta. set (s := firstn 20 (subject_serial d)).
  assert (F : Forall (fun b => 48 <= b < 128) s) by (apply Forall_firstn, Forall_firstn, hex_bytes, digest_bytes_bytes).
  assert (L : length s = 20%nat) by (unfold s; rewrite firstn_length; unfold subject_serial; rewrite subject_length; reflexivity).
  assert (SB : shortest_be (be_val s) s).
  { split; [eapply Forall_impl; [|exact F]; intros x Hx; unfold is_byte; cbv beta in Hx; lia|]. split; [reflexivity|].
    destruct s as [|b l]; [discriminate|]. inversion F as [|? ? Hb _]; subst. cbn [hd_error]. intros X. injection X as ->. lia. }
  split; [symmetry; apply shortest_be_unique; exact SB|]. split; [|split; assumption].
  intros Z. apply shortest_be_unique in SB. rewrite Z in SB. rewrite SB in L. discriminate L.
Qed.

Section Viewed.
  Variable cf : config.
  Hypothesis Hcf : config_ok cf.
  Context {C P : Type}.
  Variable co : crypto_ops C.
  Variable po : platform_ops P.
  Variable utf8 : bytes -> bool.
  Variable time : N -> bytes -> bool.
  Variable pem : bytes -> option bytes.
  Notation view := (view utf8 time pem).

  Lemma chain_svns s i cts : wf cf s -> lineage s i cts -> Forall svn_words cts.
  Proof.
    intros W L. apply Forall_forall. intros c Hc. exact (so_svn _ _ _ (lineage_slots cf s i cts W L c Hc)).
  Qed.

  Theorem certificate_viewed k a off w r w' i cts rest :
    create_cert cf C P co po k a off w = (Ok r, w') -> kind_csr k = false ->
    wf cf (w_st w) -> all_bytes (ca_ueid a) -> keys_fit cf co -> issuer_named po -> valid_times po time ->
    first_slot (names (w_st w) (ca_handle a) (ca_locality a)) i -> lineage (w_st w) i cts -> even_svns cts ->
    let b := firstn (N.to_nat (cr_size r)) (skipn off (w_out w')) in
    exists x d wd idn v, let sn := subject_serial d in
      drafted cf C P co po k a x w wd /\ key_digest (P := P) co (cr_pubkey r) d /\
      platform_gives po (enc idn) v (dr_aki x) /\
      (exists d2, key_digest (P := P) co (cr_pubkey r) d2 /\ dr_ski x = firstn 20 (digest_bytes d2)) /\
      (exists l, b = enc (Cons 0x30 l)) /\
      view (b ++ rest)
      = Some {| sh_is_csr := false; sh_subject := flat (subject_name (subject_cn (kind_exported k)) sn); sh_issuer := Some idn;
                sh_serial := Some (firstn 20 sn); sh_sig_alg := oid_content (sig_alg_oid (prof cf));
                sh_validity := Some (cv_not_before v, cv_not_after v); sh_key_alg := oid_content (key_alg (prof cf));
                sh_profile := profile_label (prof cf); sh_ueid := Some (ca_ueid a);
                sh_tcbs := map (vtcb_of (prof cf) (output_recursive k (w_st w))) (rev cts);
                sh_exts := table true (output_exts true k a x) (length cts) |}.
  Proof.
    intros H HC W HU HK HI HV HF HL HE b.
    destruct (certificate_tree cf Hcf co po _ _ _ _ _ _ _ _ H HC W HU HK (issuer_named_der _ HI) HF HL HE) as
      (x & wd & idn & g & HD & Ek & HKx & EI & Eb & En & Ei & PS & SS & HW & _). fold b in Eb. cbv zeta in *.
    destruct (drafted_name cf co po _ _ _ _ _ HD) as (d & Hd & Hn & Hs).
    destruct (drafted_platform cf co po _ _ _ _ _ HC HD) as ((G1 & G2 & G3) & Hski).
    pose proof (chain_svns _ _ _ W HL) as HSV. destruct (serial_min d) as (M1 & M2 & _).
    assert (HN : name_ok (flat idn) = true).
    { destruct G1 as (p & n & bb & p' & E0 & E1). destruct (HI _ _ _ _ E0) as (idn' & PI & EI' & NI).
      assert (SI : small idn').
      { unfold small. rewrite EI', firstn_length. pose proof (length_to_buf 128 bb). apply N.le_lt_trans with 128; [lia|]. reflexivity. }
      rewrite <- (flat_unique idn' idn); [exact NI|exact PI| |exact SI|congruence].
      unfold signed in PS. apply proper_cons in PS as [_ PS]. apply Forall_inv in PS. unfold output_tbs, tbs_certificate in PS.
      apply proper_cons in PS as [_ PS]. do 3 apply Forall_inv_tail in PS. apply Forall_inv in PS. exact PS. }
    destruct G2 as (p & v0 & p' & E0 & Ev). destruct (HV _ _ _ E0) as [T1 T2]. rewrite <- Ev in T1, T2.
    exists x, d, wd, (flat idn), (dr_validity x). cbv zeta. split; [exact HD|]. split; [rewrite Ek; exact Hd|].
    split. { rewrite enc_flat, EI. split; [exact G1|]. split; [exists p, v0, p'; auto|exact G3]. }
    split; [rewrite Ek; exact Hski|].
    split; [rewrite Eb; eexists; reflexivity|].
    rewrite Eb. unfold output_tbs in *. rewrite Hn, Hs in *. unfold tbs_certificate. rewrite view_signed by assumption.
    change (SEQUENCE (CTX 0 [INTEGER 2] :: ?l)) with
      (tbs_certificate (prof cf) (be_val (firstn 20 (subject_serial d))) idn (subject_name (subject_cn (kind_exported k)) (subject_serial d))
        (dr_validity x) (subject_public_key_info (dr_pubkey x))
        (extensions true (output_exts true k a x) (chain_infos (prof cf) (output_recursive k (w_st w)) cts))).
    rewrite view_certificate_flat by assumption. cbn [orelse]. rewrite M1. reflexivity.
  Qed.

  Lemma drafted_sid_ok k a x w wd sidt : signer_named po -> drafted cf C P co po k a x w wd -> proper sidt -> small sidt ->
    read_sid (enc sidt) = Some (written_signer (dr_sid x)) -> sid_ok (flat sidt).
  Proof.
    intros HS HD PQ SQ HR. destruct (drafted_signer cf co po _ _ _ _ _ HD) as (p & sd & p' & E0 & E1). specialize (HS _ _ _ E0). rewrite <- E1 in HS.
    unfold read_sid in HR. rewrite (decode_enc _ PQ SQ) in HR. cbn [obind] in HR.
    destruct sidt as [tg c|tg ks|tg pre ks|bb]; cbn [flat] in *.
    - cbn [sid_ok]. destruct (N.eqb_spec tg 0x80); [assumption|discriminate HR].
    - destruct ks as [|i0 [|n0 [|? ?]]]; try discriminate HR. cbn [map] in *. destruct (N.eqb_spec tg 0x30) as [->|]; [|discriminate HR].
      cbn [guard obind] in HR. destruct (flat n0) as [h c|? ?|? ? ?|?] eqn:EN; try discriminate HR. cbn [contents] in HR.
      destruct (N.eqb_spec h 2) as [->|]; [|discriminate HR]. cbn [obind] in HR. cbn [sid_ok]. split; [reflexivity|]. split; [reflexivity|].
      destruct (dr_sid x) as [ii nn|kid]; [|discriminate HR]. cbn [written_signer] in HR. injection HR as HE _.
      destruct HS as ((idn & PI & EI & NI) & _). rewrite enc_flat in HE.
      rewrite (flat_unique i0 idn); [exact NI| |exact PI| |congruence].
      + apply proper_cons in PQ as [_ PQ]. apply Forall_inv in PQ. exact PQ.
      + eapply small_kid_cons; [exact SQ|left; reflexivity].
    - cbn [sid_ok]. destruct (N.eqb_spec tg 0x80); [assumption|discriminate HR].
    - discriminate HR.
  Qed.

  Theorem request_viewed k a off w r w' i cts :
    create_cert cf C P co po k a off w = (Ok r, w') -> kind_csr k = true ->
    wf cf (w_st w) -> all_bytes (ca_ueid a) -> keys_fit cf co -> signer_named po ->
    first_slot (names (w_st w) (ca_handle a) (ca_locality a)) i -> lineage (w_st w) i cts -> even_svns cts ->
    let b := firstn (N.to_nat (cr_size r)) (skipn off (w_out w')) in
    exists x d wd,
      drafted cf C P co po k a x w wd /\ key_digest (P := P) co (cr_pubkey r) d /\
      (exists l, b = enc (Cons 0x30 l)) /\
      let s := Some {| sh_is_csr := true; sh_subject := flat (subject_name (subject_cn (kind_exported k)) (subject_serial d));
                sh_issuer := None; sh_serial := None; sh_sig_alg := oid_content (sig_alg_oid (prof cf));
                sh_validity := None; sh_key_alg := oid_content (key_alg (prof cf));
                sh_profile := profile_label (prof cf); sh_ueid := Some (ca_ueid a);
                sh_tcbs := map (vtcb_of (prof cf) (output_recursive k (w_st w))) (rev cts);
                sh_exts := table false (output_exts false k a x) (length cts) |} in
      view b = s /\ forall csr rest, read_content b = Some csr -> view (csr ++ rest) = s.
  Proof.
    intros H HC W HU HK HI HF HL HE b.
    destruct (request_tree cf Hcf co po _ _ _ _ _ _ _ _ H HC W HU HK (signer_named_der _ HI) HF HL HE) as
      (x & wd & sidt & g1 & c1 & g2 & HD & Ek & HKx & (HV & HR) & Eb & En & Ei & PM & SM & PS & SS & HW & _ & _). fold b in Eb. cbv zeta in *.
    destruct (drafted_name cf co po _ _ _ _ _ HD) as (d & Hd & Hn & Hs).
    pose proof (chain_svns _ _ _ W HL) as HSV.
    assert (HO : sid_ok (flat sidt)).
    { pose proof PM as PQ. pose proof SM as SQ. unfold content_info, signed_data, signer_info, CTX, SET, SEQUENCE in PQ, SQ.
      eapply drafted_sid_ok; [exact HI|exact HD| | |exact HR].
      - apply proper_cons in PQ as [_ PQ]. apply Forall_inv_tail, Forall_inv in PQ. apply proper_cons in PQ as [_ PQ]. apply Forall_inv in PQ.
        apply proper_cons in PQ as [_ PQ]. do 3 apply Forall_inv_tail in PQ. apply Forall_inv in PQ. apply proper_cons in PQ as [_ PQ]. apply Forall_inv in PQ.
        apply proper_cons in PQ as [_ PQ]. apply Forall_inv_tail, Forall_inv in PQ. exact PQ.
      - eapply small_kid_cons in SQ; [|right; left; reflexivity]. eapply small_kid_cons in SQ; [|left; reflexivity].
        eapply small_kid_cons in SQ; [|do 3 right; left; reflexivity]. eapply small_kid_cons in SQ; [|left; reflexivity].
        eapply small_kid_cons in SQ; [|right; left; reflexivity]. exact SQ. }
    exists x, d, wd. cbv zeta. split; [exact HD|]. split; [rewrite Ek; exact Hd|]. split; [rewrite Eb; eexists; reflexivity|].
    unfold output_info in *. rewrite Hn in *. 
    destruct (view_csr_flat utf8 time (prof cf) _ _ _ _ _ _ g1 PS SS HSV HKx) as [V1 V2].
    set (info := certification_request_info _ _ _) in *.
    assert (Ein : exists l, info = SEQUENCE l) by (eexists; reflexivity). clearbody info. destruct Ein as [l ->].
    split.
    - rewrite Eb, view_request by assumption. rewrite V1, V2. reflexivity.
    - intros csr rest E. rewrite Eb, read_content_enc in E by assumption. assert (Ec : csr = enc (signed (prof cf) (SEQUENCE l) g1)) by congruence. rewrite Ec, view_signed by assumption. rewrite V1, V2. reflexivity.
  Qed.
End Viewed.

Lemma lineage_next s i cts : lineage s i cts -> forall k a b, nth_error cts k = Some b -> nth_error cts (S k) = Some a -> at_slot s (c_parent b) a.
Proof.
  intros (l & HP & F). revert cts F. induction HP as [i c Hc Hl Hp|i c l Hc Hl Hp HP IH]; intros cts F k a b Hb Ha; inversion F as [|? d ? cs Hd F']; subst.
  - inversion F'; subst. destruct k; discriminate.
  - destruct k as [|k]; cbn [nth_error] in *; [|eapply IH; eauto]. injection Hb as ->.
    assert (c = b) as -> by (eapply at_det; eauto).
    inversion HP; subst; inversion F'; subst; cbn [nth_error] in Ha; injection Ha as ->; assumption.
Qed.
Lemma lineage_root s i cts : lineage s i cts -> exists l c, cts = l ++ [c] /\ c_parent c = ROOT.
Proof.
  intros (l & HP & F). revert cts F. induction HP as [i c Hc Hl Hp|i c l Hc Hl Hp HP IH]; intros cts F; inversion F as [|? d ? cs Hd F']; subst.
  - inversion F'; subst. exists [], d. split; [reflexivity|]. replace d with c; [exact Hp|]. eapply at_det; eauto.
  - destruct (IH _ F') as (l0 & c0 & -> & HR). exists (d :: l0), c0. split; [reflexivity|exact HR].
Qed.
Lemma lineage_own s i cts : lineage s i cts -> exists c l, cts = c :: l /\ at_slot s i c.
Proof. intros (l & HP & F). destruct HP; inversion F; subst; eauto. Qed.
Lemma nth_rev {A} (l : list A) j x : nth_error (rev l) j = Some x -> (j < length l)%nat /\ nth_error l (length l - S j) = Some x.
Proof.
  intros H. assert (L : (j < length l)%nat) by (rewrite <- rev_length; apply nth_error_Some; congruence). split; [exact L|].
  rewrite <- (rev_involutive l). rewrite <- H. rewrite rev_involutive.
  rewrite (nth_error_nth' (rev l) x) by (rewrite rev_length; exact L). rewrite rev_nth by exact L. apply nth_error_nth'. lia.
Qed.
