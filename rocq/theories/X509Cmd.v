(** X509Cmd.v -- what a verifier finds in the certificates and signed requests that
    [create_cert], CertifyKey and DeriveContext produce. *)
From Verif Require Import Base Errors Types StateOps Env Wire Instance Commands Lib Spec Exec Effects Forest History DestroyProofs Contract WireSpec Codec Steps Reach Denials CommandSpecs
  Responses Walk Measure Der DerProofs X509 X509Cert X509Run X509Spec X509Bytes X509Enc X509Tbs X509Cms X509Out X509Proper X509Gen X509Read
  X509ReadOk X509Made X509Total X509Sane.
Open Scope N_scope.
Open Scope dpe_scope.

(** ** What the environment must deliver *)

(** Keys of the profile's algorithm. *)
Definition keys_fit (cf : config) {C} (co : crypto_ops C) : Prop :=
  forall c pk c', co_signer_public_key co c = (inl pk, c') -> key_of (prof cf) pk.
(** An issuer name that is a DER value. *)
Definition issuer_der {P} (po : platform_ops P) : Prop :=
  forall p n b p', po_issuer_name po (repeat 0 128) p = (inl n, b, p') ->
    exists idn, proper idn /\ enc idn = firstn (N.to_nat n) (to_buf 128 b).
(** A signer identifier whose name is a DER value and whose serial number is not
    empty. *)
Definition signer_der {P} (po : platform_ops P) : Prop :=
  forall p sid p', po_signer_identifier po p = (inl sid, p') ->
    match cap_sid sid with
    | IssuerAndSerialNumber i n => (exists idn, proper idn /\ enc idn = i) /\ n <> []
    | SubjectKeyIdentifier _ => True
    end.

(** ** Trees *)

Fixpoint enc_flat (t : der) : enc (flat t) = enc t.
Proof.
  destruct t as [tag c|tag ks|tag pre ks|b]; cbn [flat]; try reflexivity.
  unfold enc. cbn [enc_with]. f_equal. rewrite map_map. f_equal.
  induction ks as [|x ks IH]; [reflexivity|]. cbn [map]. f_equal; [apply enc_flat|exact IH].
Qed.

Lemma cut off (out t : bytes) n : n = len t -> (off + N.to_nat n <= length out)%nat ->
  firstn (N.to_nat n) (skipn off (firstn off out ++ t ++ skipn (off + N.to_nat n) out)) = t.
Proof.
  intros -> H. unfold len in *. rewrite Nat2N.id in *.
  rewrite skipn_app, skipn_all2 by (rewrite firstn_length; lia). rewrite firstn_length.
  replace (off - Nat.min off (length out))%nat with 0%nat by lia. cbn [skipn app].
  rewrite firstn_app, firstn_all, Nat.sub_diag. cbn [firstn]. apply app_nil_r.
Qed.

Section Cmd.
  Variable cf : config.
  Hypothesis Hcf : config_ok cf.
  Context {C P : Type}.
  Variable co : crypto_ops C.
  Variable po : platform_ops P.
  Notation world := (world C P).
  Notation M := (M C P).
  Notation drafted := (drafted cf C P co po).

  Lemma drafted_key k a x w w' : keys_fit cf co -> drafted k a x w w' -> key_of (prof cf) (dr_pubkey x).
  Proof.
    intros HK (w1 & w2 & w3 & w4 & w5 & w6 & w7 & w8 & v & sid & _ & _ & E2 & _).
    unfold derive_subject_key in E2. destruct (kind_exported k).
    - apply bind_inv in E2 as [(h & w0 & _ & E2)|[(e & _ & X)|(e & _ & X)]]; [|discriminate..].
      apply bind_inv in E2 as [(u & w9 & _ & E2)|[(e & _ & X)|(e & _ & X)]]; [|discriminate..].
      apply bind_inv in E2 as [(pk & wa & E2 & E3)|[(e & _ & X)|(e & _ & X)]]; [|discriminate..].
      apply ret_inv in E3 as [E3 _]. apply ok_inj in E3. replace (dr_pubkey x) with pk by congruence.
      unfold crypto in E2. destruct (co_signer_public_key co (w_c w9)) as [[pk1|e] c1] eqn:E4; [|discriminate].
      apply (f_equal fst) in E2. cbn [fst] in E2. apply ok_inj in E2. subst. eapply HK; exact E4.
    - apply bind_inv in E2 as [(pk & wa & E2 & E3)|[(e & _ & X)|(e & _ & X)]]; [|discriminate..].
      apply ret_inv in E3 as [E3 _]. apply ok_inj in E3. replace (dr_pubkey x) with pk by congruence.
      unfold crypto, derive_pub_key, cseq in E2.
      destruct (co_derive_cdi co _ _ _) as [[u|e] c1]; [|discriminate].
      destruct (co_derive_key_pair co _ _ _) as [[u2|e] c2]; [|discriminate].
      destruct (co_signer_public_key co c2) as [[pk1|e] c3] eqn:E4; [|discriminate].
      apply (f_equal fst) in E2. cbn [fst] in E2. apply ok_inj in E2. subst. eapply HK; exact E4.
  Qed.
  Lemma drafted_issuer k a x w w' : issuer_der po -> kind_csr k = false -> drafted k a x w w' ->
    exists idn, proper idn /\ enc idn = dr_issuer x.
  Proof.
    intros HI HC (w1 & w2 & w3 & w4 & w5 & w6 & w7 & w8 & v & sid & _ & _ & _ & _ & _ & _ & _ & _ & _ & _ & _ & EI).
    rewrite HC in EI. unfold get_issuer_name in EI. change max_issuer_name_size with 128%nat in EI.
    destruct (po_issuer_name po (repeat 0 128) (w_p w8)) as [[[n|e] b] p] eqn:E0; [|discriminate].
    apply (f_equal fst) in EI. cbn [fst] in EI. destruct (N.ltb _ n); [discriminate|]. apply ok_inj in EI.
    rewrite <- EI. eapply HI; exact E0.
  Qed.
  (** Who a reader takes the signer to be: a key identifier is read together with the
      octets of the OCTET STRING around it. *)
  Definition written_signer (sid : signer_identifier) : signer :=
    match sid with
    | IssuerAndSerialNumber i n => ByIssuer i (Z.of_N (be_val n))
    | SubjectKeyIdentifier kid => ByKey (enc (OCTETS kid))
    end.
  Lemma drafted_sid k a x w w' : signer_der po -> drafted k a x w w' ->
    exists sidt, proper sidt /\ enc sidt = enc (sid_der (dr_sid x)) /\
      sid_version (flat sidt) = Some (syntax_version (dr_sid x)) /\
      (small sidt -> read_sid (enc sidt) = Some (written_signer (dr_sid x))).
  Proof.
    intros HS HD. pose proof (drafted_bytes _ _ _ _ _ _ _ _ _ _ HD) as B. pose proof (db_sid _ _ B) as HB.
    destruct HD as (w1 & w2 & w3 & w4 & w5 & w6 & w7 & w8 & v & sid & _ & _ & _ & _ & _ & _ & _ & _ & _ & ES & Esid & _).
    unfold platform in ES. destruct (po_signer_identifier po (w_p w7)) as [[sid1|e] p1] eqn:E0; [|discriminate].
    apply (f_equal fst) in ES. cbn [fst] in ES. apply ok_inj in ES. subst sid1. apply HS in E0. rewrite <- Esid in E0.
    destruct (dr_sid x) as [i n|kid].
    - destruct E0 as [(idn & HP & HE) HN]. destruct HB as (_ & _ & HB & _). exists (SEQUENCE [idn; INTEGER (be_val n)]).
      assert (PQ : proper (SEQUENCE [idn; INTEGER (be_val n)])).
      { apply proper_seq. constructor; [exact HP|]. constructor; [apply proper_integer|constructor]. }
      split; [exact PQ|]. split; [|split; [reflexivity|]].
      2: { intros SQ. unfold read_sid. rewrite (decode_enc _ PQ SQ). unfold SEQUENCE, INTEGER. cbn [flat map obind guard N.eqb Pos.eqb].
           cbn [contents N.eqb Pos.eqb obind]. rewrite enc_flat, HE, signed_uint. reflexivity. }
      unfold sid_der, SEQUENCE, INTEGER, enc. cbn [enc_with map concat]. fold enc. rewrite HE, (code_int_correct n HB HN). reflexivity.
    - exists (sid_der (SubjectKeyIdentifier kid)).
      assert (PQ : proper (sid_der (SubjectKeyIdentifier kid))).
      { cbn [sid_der proper]. unfold OCTETS. cbn [proper]. destruct HB as [HB _].
        repeat split; try constructor; try discriminate; exact HB. }
      split; [exact PQ|]. split; [reflexivity|]. split; [reflexivity|]. intros SQ.
      unfold read_sid. rewrite (decode_enc _ PQ SQ). cbn [sid_der flat map concat app obind N.eqb Pos.eqb guard written_signer].
      rewrite app_nil_r. reflexivity.
  Qed.
  (** The signer the platform names in a request. *)
  Definition platform_signer (b : bytes) : Prop :=
    exists p sid p', po_signer_identifier po p = (inl sid, p') /\ read_sid b = Some (written_signer (cap_sid sid)).
  Lemma drafted_signer k a x w w' : drafted k a x w w' ->
    exists p sid p', po_signer_identifier po p = (inl sid, p') /\ dr_sid x = cap_sid sid.
  Proof.
    intros (w1 & w2 & w3 & w4 & w5 & w6 & w7 & w8 & v & sid & _ & _ & _ & _ & _ & _ & _ & _ & _ & ES & Esid & _).
    unfold platform in ES. destruct (po_signer_identifier po (w_p w7)) as [[sid1|e] p1] eqn:E0; [|discriminate].
    apply (f_equal fst) in ES. cbn [fst] in ES. apply ok_inj in ES. subst sid1. exists (w_p w7), sid, p1. auto.
  Qed.
  Lemma drafted_idx k a x w w' i : drafted k a x w w' ->
    first_slot (names (w_st w) (ca_handle a) (ca_locality a)) i -> dr_idx x = i.
  Proof.
    intros (w1 & w2 & w3 & w4 & w5 & w6 & w7 & w8 & v & sid & E0 & _) H. apply lookup_ok in H. congruence.
  Qed.

  (** The tree behind a certificate. *)
  Lemma certificate_tree k a off w r w' i cts :
    create_cert cf C P co po k a off w = (Ok r, w') -> kind_csr k = false ->
    wf cf (w_st w) -> all_bytes (ca_ueid a) -> keys_fit cf co -> issuer_der po ->
    first_slot (names (w_st w) (ca_handle a) (ca_locality a)) i -> lineage (w_st w) i cts -> even_svns cts ->
    exists x wd idn g, let tbs := output_tbs cf k a (w_st w) cts idn x in
      drafted k a x w wd /\ cr_pubkey r = dr_pubkey x /\ key_of (prof cf) (dr_pubkey x) /\ enc idn = dr_issuer x /\
      firstn (N.to_nat (cr_size r)) (skipn off (w_out w')) = enc (signed (prof cf) tbs g) /\
      cr_size r = len (enc (signed (prof cf) tbs g)) /\ dr_idx x = i /\
      proper (signed (prof cf) tbs g) /\ small (signed (prof cf) tbs g) /\ Forall entry_words cts /\
      co_sign_with_alias co (SDBuffer (enc tbs)) (w_c wd) = (inl g, w_c w').
  Proof.
    intros H HC W HU HK HI HF HL HE.
    assert (HKr : key_of (prof cf) (cr_pubkey r)).
    { pose proof (made_inv cf co po _ _ _ _ _ _ H) as (x & wd & n & wr & HD & _ & _ & _ & _ & _ & Epk & _).
      rewrite Epk. eapply drafted_key; eauto. }
    apply certificate_made in H as (x & wd & HD & Ek & T); [|assumption..].
    destruct (drafted_issuer _ _ _ _ _ HI HC HD) as (idn & HP & HQ).
    pose proof (drafted_idx _ _ _ _ _ _ HD HF) as Ei.
    rewrite Ei in T. destruct (T cts idn HL HE HQ) as (g & Hg & En & HB & HO & Wt & Ws). clear T.
    cbv zeta in *. exists x, wd, idn, g. cbv zeta. set (tbs := output_tbs cf k a (w_st w) cts idn x) in *.
    pose proof (drafted_bytes _ _ _ _ _ _ _ _ _ _ HD) as B. pose proof (chain_words cf _ _ _ W HL) as HW.
    assert (PT : proper tbs) by (apply output_tbs_proper; assumption).
    split; [exact HD|]. split; [exact Ek|]. split; [rewrite <- Ek; exact HKr|]. split; [exact HQ|].
    split; [rewrite HO; apply cut; assumption|]. split; [exact En|]. split; [exact Ei|].
    split; [apply proper_signed, PT|]. split; [apply wide_small, Ws|]. split; [exact HW|exact Hg].
  Qed.

  Theorem certificate_read k a off w r w' i cts :
    create_cert cf C P co po k a off w = (Ok r, w') -> kind_csr k = false ->
    wf cf (w_st w) -> all_bytes (ca_ueid a) -> keys_fit cf co -> issuer_der po ->
    first_slot (names (w_st w) (ca_handle a) (ca_locality a)) i -> lineage (w_st w) i cts -> even_svns cts ->
    let b := firstn (N.to_nat (cr_size r)) (skipn off (w_out w')) in
    len b = cr_size r /\
    (exists tbs g c, let t := Cons 0x30 [tbs; flat (alg_id (sig_alg_oid (prof cf))); flat (signature_bits g)] in
       decode b = Some t /\ b = enc t /\ co_sign_with_alias co (SDBuffer (enc tbs)) c = (inl g, w_c w')) /\
    read_certificate (prof cf) b = Some (ca_critical a, map (reported (output_recursive k (w_st w))) (rev cts)).
  Proof.
    intros H HC W HU HK HI HF HL HE b.
    destruct (certificate_tree _ _ _ _ _ _ _ _ H HC W HU HK HI HF HL HE) as
      (x & wd & idn & g & HD & _ & _ & HQ & Eb & En & _ & PS & SS & HW & Hg). fold b in Eb.
    cbv zeta in *. set (tbs := output_tbs cf k a (w_st w) cts idn x) in *.
    split; [rewrite Eb; symmetry; exact En|]. split.
    - exists (flat tbs), g, (w_c wd). cbv zeta. rewrite Eb. split; [rewrite (decode_enc _ PS SS); reflexivity|].
      split; [symmetry; apply (enc_flat (signed (prof cf) tbs g))|rewrite enc_flat; exact Hg].
    - rewrite Eb. unfold tbs, output_tbs in *. rewrite (read_certificate_enc _ _ _ _ _ _ _ _ _ _ PS SS HW). reflexivity.
  Qed.

  (** The digest of a public key that the subject's name is made of. *)
  Definition key_digest (pk : pubkey) (d : digest) : Prop :=
    exists w w1 : world, hash_pubkey C P co pk w = (Ok d, w1).

  Definition output_facts (k : cert_kind) (a : cert_args) (pk : pubkey) (d : digest) : facts :=
    {| fa_name := (subject_cn (kind_exported k), subject_serial d); fa_key := key_octets (prof cf) pk;
       fa_ueid := ca_ueid a; fa_ca := kind_exported k;
       fa_usage := if kind_exported k then [2; 0x84] else [7; 0x80];
       fa_purpose := oid_content (if kind_exported k then id_dice_kp_eca else id_dice_kp_attestLoc) |}.
  Lemma drafted_name k a x w w' : drafted k a x w w' -> exists d, key_digest (dr_pubkey x) d /\
    name_der (dr_subject x) = subject_name (subject_cn (kind_exported k)) (subject_serial d) /\
    ds_bytes (nm_serial (dr_subject x)) = subject_serial d.
  Proof.
    intros (w1 & w2 & w3 & w4 & w5 & w6 & w7 & w8 & v & sid & _ & _ & _ & E3 & _).
    apply subject_spec in E3 as (dg & w9 & E & _ & ->). exists dg. split; [exists w2, w9; exact E|]. split; reflexivity.
  Qed.

  (** What else the platform contributes to a certificate. *)
  Definition platform_gives (idn : bytes) (v : cert_validity) (aki : bytes) : Prop :=
    (exists p n b p', po_issuer_name po (repeat 0 128) p = (inl n, b, p') /\ idn = firstn (N.to_nat n) (to_buf 128 b)) /\
    (exists p v0 p', po_cert_validity po p = (inl v0, p') /\ v = cap_validity v0) /\
    (exists p u b p', po_issuer_key_identifier po (repeat 0 20) p = (inl u, b, p') /\ aki = to_buf 20 b).
  Lemma drafted_platform k a x w w' : kind_csr k = false -> drafted k a x w w' ->
    platform_gives (dr_issuer x) (dr_validity x) (dr_aki x) /\
    exists d, key_digest (dr_pubkey x) d /\ dr_ski x = firstn 20 (digest_bytes d).
  Proof.
    intros HC (w1 & w2 & w3 & w4 & w5 & w6 & w7 & w8 & v & sid & _ & _ & _ & _ & E4 & E5 & _ & EV & Ev & _ & _ & EI).
    split; [split; [|split]|].
    - rewrite HC in EI. unfold get_issuer_name in EI. change max_issuer_name_size with 128%nat in EI.
      destruct (po_issuer_name po (repeat 0 128) (w_p w8)) as [[[n|e] b] p] eqn:E0; [|discriminate].
      apply (f_equal fst) in EI. cbn [fst] in EI. destruct (N.ltb _ n); [discriminate|]. apply ok_inj in EI.
      exists (w_p w8), n, b, p. split; [exact E0|]. symmetry. exact EI.
    - unfold platform in EV. destruct (po_cert_validity po (w_p w6)) as [[v0|e] p0] eqn:E0; [|discriminate].
      apply (f_equal fst) in EV. cbn [fst] in EV. apply ok_inj in EV. subst v0. exists (w_p w6), v, p0. auto.
    - unfold get_authority_key_identifier in E5. change max_key_identifier_size with 20%nat in E5.
      destruct (po_issuer_key_identifier po (repeat 0 20) (w_p w4)) as [[[u|u] b] p] eqn:E0; [|discriminate].
      apply (f_equal fst) in E5. cbn [fst] in E5. apply ok_inj in E5. exists (w_p w4), u, b, p. auto.
    - unfold get_subject_key_identifier in E4. apply bind_inv in E4 as [(d & u & E4 & H)|[(e & _ & X)|(e & _ & X)]]; [|discriminate..].
      exists d. split; [exists w3, u; exact E4|]. destruct (Nat.ltb _ _); [discriminate|].
      apply ret_inv in H as [H _]. apply ok_inj in H. exact H.
  Qed.

  Theorem certificate_says k a off w r w' i cts :
    create_cert cf C P co po k a off w = (Ok r, w') -> kind_csr k = false ->
    wf cf (w_st w) -> all_bytes (ca_ueid a) -> keys_fit cf co -> issuer_der po ->
    first_slot (names (w_st w) (ca_handle a) (ca_locality a)) i -> lineage (w_st w) i cts -> even_svns cts ->
    let b := firstn (N.to_nat (cr_size r)) (skipn off (w_out w')) in
    exists d d2 idn v aki, key_digest (cr_pubkey r) d /\ key_digest (cr_pubkey r) d2 /\ platform_gives idn v aki /\
      certificate_facts (prof cf) b = Some (output_facts k a (cr_pubkey r) d) /\
      read_issue (prof cf) b = Some {| is_serial := Z.of_N (be_val (firstn 20 (subject_serial d))); is_issuer := idn;
        is_validity := (cv_not_before v, cv_not_after v); is_authority := aki;
        is_key_id := if kind_exported k then Some (firstn 20 (digest_bytes d2)) else None |}.
  Proof.
    intros H HC W HU HK HI HF HL HE b.
    destruct (certificate_tree _ _ _ _ _ _ _ _ H HC W HU HK HI HF HL HE) as
      (x & wd & idn & g & HD & Ek & HKx & HQ & Eb & En & _ & PS & SS & HW & Hg). fold b in Eb.
    cbv zeta in *. destruct (drafted_name _ _ _ _ _ HD) as (d & Hd & Hn & Hs).
    destruct (drafted_platform _ _ _ _ _ HC HD) as (Hp & d2 & Hd2 & Hsk).
    exists d, d2, (dr_issuer x), (dr_validity x), (dr_aki x). rewrite Ek. split; [exact Hd|]. split; [exact Hd2|]. split; [exact Hp|].
    rewrite Eb. unfold output_tbs in *. split.
    - rewrite (certificate_facts_ok _ _ _ _ _ _ _ _ _ PS SS _ _ _ Hn eq_refl HKx). reflexivity.
    - rewrite (read_issue_ok _ _ _ _ _ _ _ _ _ PS SS). rewrite enc_flat, HQ, Hs.
      cbn [output_exts xd_ca xd_aki xd_ski]. rewrite Hsk. reflexivity.
  Qed.

  (** The tree behind a request. *)
  Lemma request_tree k a off w r w' i cts :
    create_cert cf C P co po k a off w = (Ok r, w') -> kind_csr k = true ->
    wf cf (w_st w) -> all_bytes (ca_ueid a) -> keys_fit cf co -> signer_der po ->
    first_slot (names (w_st w) (ca_handle a) (ca_locality a)) i -> lineage (w_st w) i cts -> even_svns cts ->
    exists x wd sidt g1 c1 g2, let info := output_info cf k a (w_st w) cts x in
      let v := syntax_version (dr_sid x) in
      let csr := signed (prof cf) info g1 in
      let m := content_info (signed_data (prof cf) v csr (signer_info (prof cf) v sidt g2)) in
      drafted k a x w wd /\ cr_pubkey r = dr_pubkey x /\ key_of (prof cf) (dr_pubkey x) /\
      (sid_version (flat sidt) = Some (syntax_version (dr_sid x)) /\ read_sid (enc sidt) = Some (written_signer (dr_sid x))) /\
      firstn (N.to_nat (cr_size r)) (skipn off (w_out w')) = enc m /\ cr_size r = len (enc m) /\ dr_idx x = i /\
      proper m /\ small m /\ proper csr /\ small csr /\ Forall entry_words cts /\
      sign_with_derived C co (dr_digest x) (ca_cdi_label a) (ca_key_label a) (ca_context a) (SDBuffer (enc info)) (w_c wd)
        = (inl g1, c1) /\
      co_sign_with_alias co (SDBuffer (enc csr)) c1 = (inl g2, w_c w').
  Proof.
    intros H HC W HU HK HI HF HL HE.
    assert (HKr : key_of (prof cf) (cr_pubkey r)).
    { pose proof (made_inv cf co po _ _ _ _ _ _ H) as (x & wd & n & wr & HD & _ & _ & _ & _ & _ & Epk & _).
      rewrite Epk. eapply drafted_key; eauto. }
    apply request_made in H as (x & wd & HD & Ek & T); [|assumption..].
    destruct (drafted_sid _ _ _ _ _ HI HD) as (sidt & HP & HQ & HV & HR).
    pose proof (drafted_idx _ _ _ _ _ _ HD HF) as Ei.
    rewrite Ei in T.
    destruct (T cts sidt HL HE HQ) as (g1 & c1 & g2 & Hg1 & Hg2 & En & HB & HO & Wt & Ws). clear T.
    cbv zeta in *. exists x, wd, sidt, g1, c1, g2. cbv zeta. set (info := output_info cf k a (w_st w) cts x) in *.
    set (m := content_info _) in *.
    pose proof (drafted_bytes _ _ _ _ _ _ _ _ _ _ HD) as B. pose proof (chain_words cf _ _ _ W HL) as HW.
    assert (PT : proper info) by (apply output_info_proper; assumption).
    assert (PS : proper (signed (prof cf) info g1)) by (apply proper_signed, PT).
    assert (PM : proper m) by (apply proper_content_info, proper_signed_data; [exact PS|apply proper_signer_info, HP]).
    assert (SM : small m).
    { apply (small_below _ 65540); [rewrite <- En; exact Ws|]. apply N.leb_le. vm_compute. reflexivity. }
    assert (SS : small (signed (prof cf) info g1)).
    { pose proof SM as HS. unfold m, content_info, signed_data, CTX, OCTETS_OF in HS.
      eapply small_kid_cons in HS; [|right; left; reflexivity]. eapply small_kid_cons in HS; [|left; reflexivity].
      eapply small_kid_cons in HS; [|right; right; left; reflexivity]. eapply small_kid_cons in HS; [|right; left; reflexivity].
      eapply small_kid_cons in HS; [|left; reflexivity]. eapply small_kid_wrap in HS; [|left; reflexivity]. exact HS. }
    split; [exact HD|]. split; [exact Ek|]. split; [rewrite <- Ek; exact HKr|]. split.
    { split; [exact HV|]. apply HR. pose proof SM as SQ. unfold m, content_info, signed_data, signer_info, CTX, SET in SQ.
      eapply small_kid_cons in SQ; [|right; left; reflexivity]. eapply small_kid_cons in SQ; [|left; reflexivity].
      eapply small_kid_cons in SQ; [|do 3 right; left; reflexivity]. eapply small_kid_cons in SQ; [|left; reflexivity].
      eapply small_kid_cons in SQ; [|right; left; reflexivity]. exact SQ. }
    split; [rewrite HO; apply cut; assumption|]. split; [exact En|]. split; [exact Ei|]. auto 10.
  Qed.

  Theorem request_read k a off w r w' i cts :
    create_cert cf C P co po k a off w = (Ok r, w') -> kind_csr k = true ->
    wf cf (w_st w) -> all_bytes (ca_ueid a) -> keys_fit cf co -> signer_der po ->
    first_slot (names (w_st w) (ca_handle a) (ca_locality a)) i -> lineage (w_st w) i cts -> even_svns cts ->
    let b := firstn (N.to_nat (cr_size r)) (skipn off (w_out w')) in
    len b = cr_size r /\
    (exists csr info d g1 g2 c1 c2 m, let t := Cons 0x30 [info; flat (alg_id (sig_alg_oid (prof cf))); flat (signature_bits g1)] in
       decode b = Some m /\ b = enc m /\ read_content b = Some csr /\ decode csr = Some t /\ csr = enc t /\
       (exists w1, compute_measurement_hash cf C P co po i w = (Ok d, w1)) /\
       sign_with_derived C co d (ca_cdi_label a) (ca_key_label a) (ca_context a) (SDBuffer (enc info)) c1 = (inl g1, c2) /\
       co_sign_with_alias co (SDBuffer csr) c2 = (inl g2, w_c w') /\
       (exists sid, read_signer (prof cf) b = Some (sid, flat (signature_octets g2)) /\ platform_signer sid)) /\
    read_request (prof cf) b = Some (ca_critical a, map (reported (output_recursive k (w_st w))) (rev cts)).
  Proof.
    intros H HC W HU HK HI HF HL HE b.
    destruct (request_tree _ _ _ _ _ _ _ _ H HC W HU HK HI HF HL HE) as
      (x & wd & sidt & g1 & c1 & g2 & HD & _ & _ & HQ & Eb & En & Ei & PM & SM & PS & SS & HW & Hg1 & Hg2). fold b in Eb.
    cbv zeta in *. set (info := output_info cf k a (w_st w) cts x) in *. set (m := content_info _) in *.
    split; [rewrite Eb; symmetry; exact En|]. split.
    - exists (enc (signed (prof cf) info g1)), (flat info), (dr_digest x), g1, g2, (w_c wd), c1, (flat m). cbv zeta.
      split; [rewrite Eb; apply (decode_enc _ PM SM)|]. split; [rewrite Eb; symmetry; apply enc_flat|].
      split; [rewrite Eb; apply read_content_enc; assumption|]. split; [rewrite (decode_enc _ PS SS); reflexivity|].
      split; [symmetry; apply (enc_flat (signed (prof cf) info g1))|].
      destruct (drafted_signer _ _ _ _ _ HD) as (pp & sd & pp' & HP1 & HP2). destruct HQ as [HV HR]. split; [|split; [rewrite enc_flat; exact Hg1|split; [exact Hg2|]]].
      + destruct HD as (w1 & w2 & w3 & w4 & w5 & w6 & w7 & w8 & v & sid & _ & E1 & _). rewrite Ei in E1. exists w1. exact E1.
      + exists (enc sidt). split; [|exists pp, sd, pp'; rewrite <- HP2; auto]. rewrite Eb. unfold m. rewrite read_signer_enc by assumption. rewrite enc_flat. reflexivity.
    - rewrite Eb. unfold m, info, output_info in *. rewrite read_request_enc by assumption. reflexivity.
  Qed.

  Theorem request_says k a off w r w' i cts :
    create_cert cf C P co po k a off w = (Ok r, w') -> kind_csr k = true ->
    wf cf (w_st w) -> all_bytes (ca_ueid a) -> keys_fit cf co -> signer_der po ->
    first_slot (names (w_st w) (ca_handle a) (ca_locality a)) i -> lineage (w_st w) i cts -> even_svns cts ->
    let b := firstn (N.to_nat (cr_size r)) (skipn off (w_out w')) in
    exists d, key_digest (cr_pubkey r) d /\ request_facts (prof cf) b = Some (output_facts k a (cr_pubkey r) d).
  Proof.
    intros H HC W HU HK HI HF HL HE b.
    destruct (request_tree _ _ _ _ _ _ _ _ H HC W HU HK HI HF HL HE) as
      (x & wd & sidt & g1 & c1 & g2 & HD & Ek & HKx & HQ & Eb & En & Ei & PM & SM & PS & SS & HW & _ & _). fold b in Eb.
    cbv zeta in *. destruct (drafted_name _ _ _ _ _ HD) as (d & Hd & Hn & Hs). exists d. rewrite Ek. split; [exact Hd|].
    unfold request_facts. rewrite Eb, read_content_enc by assumption. cbn [obind].
    unfold output_info in *. rewrite Hn in *. rewrite (csr_facts_ok _ _ _ _ _ _ _ HKx PS SS). reflexivity.
  Qed.

  (** ** Commands that use the modelled writer *)

  Notation exec := (exec_command cf C P co po (x509_gen cf C P co po)).

  Lemma run_create k a o w : run_cert C P (x509_gen cf C P co po) k a o w = create_cert cf C P co po k a o w.
  Proof.
    unfold run_cert, x509_gen. destruct w as [s c p out]. cbn [w_st w_c w_p w_out].
    destruct (create_cert cf C P co po k a o (mkWorld s c p out)) as [r w1] eqn:E0.
    pose proof (create_cert_frame cf co po _ _ _ _ _ _ E0) as (HS & _). cbn [w_st] in HS.
    destruct w1 as [s1 c1 p1 o1]. cbn [w_st w_c w_p w_out] in *. subst. reflexivity.
  Qed.

  Lemma skip_overwrite (out bs : bytes) n : length bs = n -> skipn n (overwrite out 0 bs) = skipn n out.
  Proof.
    intros <-. unfold overwrite. cbn [firstn app Nat.add]. rewrite skipn_app, skipn_all, Nat.sub_diag. reflexivity.
  Qed.
  Lemma slice_overwrite (out bs : bytes) i n : (i + n <= length bs)%nat -> slice (overwrite out 0 bs) i n = slice bs i n.
  Proof.
    intros H. unfold overwrite, slice. cbn [firstn app]. rewrite skipn_app.
    replace (i - length bs)%nat with 0%nat by lia. rewrite firstn_app, skipn_length.
    replace (n - (length bs - i))%nat with 0%nat by lia. cbn [firstn]. apply app_nil_r.
  Qed.
  Lemma slice_last (a b : bytes) n : length b = n -> slice (a ++ b) (length (a ++ b) - n) n = b.
  Proof.
    intros <-. unfold slice. rewrite app_length. replace (length a + length b - length b)%nat with (length a) by lia.
    rewrite skipn_app, skipn_all, Nat.sub_diag. cbn [skipn app]. apply firstn_all.
  Qed.

  Lemma slice_mid (a b c : bytes) i : length a = i -> slice (a ++ b ++ c) i (length b) = b.
  Proof.
    intros <-. unfold slice. rewrite skipn_app, skipn_all, Nat.sub_diag. cbn [skipn app].
    rewrite firstn_app, firstn_all, Nat.sub_diag. cbn [firstn]. apply app_nil_r.
  Qed.

  (** Where the certified key comes from. *)
  Lemma created_key k a off w r w' i : create_cert cf C P co po k a off w = (Ok r, w') ->
    first_slot (names (w_st w) (ca_handle a) (ca_locality a)) i ->
    exists d w1, compute_measurement_hash cf C P co po i w = (Ok d, w1) /\
      if kind_exported k then
        exists h c1 c2 c3, co_derive_exported_cdi co d (ca_cdi_label a) (w_c w1) = (inl h, c1) /\
          co_derive_key_pair_exported co (to_buf 32 h) (ca_key_label a) (ca_context a) c1 = (inl tt, c2) /\
          co_signer_public_key co c2 = (inl (cr_pubkey r), c3) /\ cr_exported r = to_buf 32 h
      else exists c', derive_pub_key C co d (ca_cdi_label a) (ca_key_label a) (ca_context a) (w_c w1) = (inl (cr_pubkey r), c').
  Proof.
    intros H HF. apply made_inv in H as (x & wd & n & wr & HD & _ & _ & _ & _ & _ & Epk & Eex).
    pose proof (drafted_idx _ _ _ _ _ _ HD HF) as Ei.
    destruct HD as (w1 & w2 & w3 & w4 & w5 & w6 & w7 & w8 & v & sid & _ & E1 & E2 & _). rewrite Ei in E1.
    exists (dr_digest x), w1. split; [exact E1|]. unfold derive_subject_key in E2. rewrite Epk. destruct (kind_exported k).
    - change max_exported_cdi_size with 32%nat in *.
      apply bind_inv in E2 as [(h & u1 & G1 & E2)|[(e & _ & X)|(e & _ & X)]]; [|discriminate..]. cbv zeta in E2.
      apply bind_inv in E2 as [(tt1 & u2 & G2 & E2)|[(e & _ & X)|(e & _ & X)]]; [|discriminate..].
      apply bind_inv in E2 as [(pk & u3 & G3 & E2)|[(e & _ & X)|(e & _ & X)]]; [|discriminate..].
      apply ret_inv in E2 as [E2 _]. apply ok_inj in E2.
      pose proof (f_equal fst E2) as Q1. pose proof (f_equal snd E2) as Q2. cbn [fst snd] in Q1, Q2. rewrite Q2 in Eex.
      apply crypto_inv in G1 as (c1 & -> & [(a1 & A1 & B1)|(e & A1 & _)]); [|discriminate]. apply ok_inj in A1. subst a1.
      apply crypto_inv in G2 as (c2 & -> & [(a2 & A2 & B2)|(e & A2 & _)]); [|discriminate]. apply ok_inj in A2. subst a2.
      apply crypto_inv in G3 as (c3 & -> & [(a3 & A3 & B3)|(e & A3 & _)]); [|discriminate]. apply ok_inj in A3. subst a3.
      cbn [w_c] in *. destruct tt1. exists h, c1, c2, c3. rewrite Q1. split; [exact B1|]. split; [exact B2|]. split; [exact B3|]. congruence.
    - apply bind_inv in E2 as [(pk & u3 & G3 & E2)|[(e & _ & X)|(e & _ & X)]]; [|discriminate..].
      apply ret_inv in E2 as [E2 _]. apply ok_inj in E2. pose proof (f_equal fst E2) as Q1. cbn [fst] in Q1.
      apply crypto_inv in G3 as (c3 & -> & [(a3 & A3 & B3)|(e & A3 & _)]); [|discriminate]. apply ok_inj in A3. subst a3.
      exists c3. rewrite Q1. exact B3.
  Qed.

  Lemma certify_created cmd loc w n w' : wf cf (w_st w) -> exec (CmdCertifyKey cmd) loc w = (Ok n, w') ->
    let c := certify_inner cmd in
    let hdr := certify_hdr_size (certify_profile cmd) in
    exists cr w1 pk, create_cert cf C P co po (if N.eqb (ck_format c) 0 then KindX509 else KindCsr)
        (certify_args cf c loc (w_st w)) hdr w = (Ok cr, w1) /\
      n = N.of_nat hdr + cr_size cr /\ skipn hdr (w_out w') = skipn hdr (w_out w1) /\
      pubkey_bytes (certify_profile cmd) (cr_pubkey cr) = Some pk /\
      slice (w_out w') (hdr - 4) 4 = le_bytes 4 (cr_size cr) /\ slice (w_out w') 28 (hdr - 32) = pk.
  Proof.
    intros W H c hdr. cbn [exec_command] in H.
    apply exec_certify_inv in H as [[_ N]|(s' & w1 & cr & nh & (i & ctx & _ & Hrun & Hr) & K & H)]; [exfalso; eapply N; reflexivity|].
    rewrite run_create in Hrun. exists cr, w1.
    destruct (pubkey_bytes (certify_profile cmd) (cr_pubkey cr)) as [pk|] eqn:PK; [|destruct H; discriminate].
    cbv zeta in H. destruct H as [(Hl & Hn & Ho)|(_ & X & _)]; [|discriminate]. apply ok_inj in Hn.
    assert (Lh : length nh = 16%nat).
    { destruct Hr as (i' & c0 & c' & Hf & Hc & R & Hs & ->).
      pose proof (so_handle _ _ _ (wf_slot _ _ W i' c0 Hc)) as [B _].
      destruct R as [[_ ->]|(_ & h & (_ & L & _) & ->)]; [exact B|]. exact L. }
    pose proof (certify_bytes_len cf _ nh _ _ (cr_size cr) Lh PK) as HB.
    exists pk. split; [exact Hrun|]. split; [exact Hn|]. split; [rewrite Ho; apply skip_overwrite, HB|]. split; [reflexivity|].
    assert (Lp : (hdr - 32)%nat = length pk).
    { unfold hdr. rewrite <- HB. unfold certify_hdr_bytes. rewrite !app_length, length_ok_hdr, length_le_bytes, Lh. lia. }
    rewrite Ho. unfold hdr in *. split.
    - rewrite <- HB. rewrite slice_overwrite.
      + unfold certify_hdr_bytes. rewrite !app_assoc. apply slice_last, length_le_bytes.
      + unfold certify_hdr_bytes. rewrite !app_length, length_le_bytes. lia.
    - rewrite Lp, slice_overwrite by (unfold certify_hdr_bytes; rewrite !app_length, length_ok_hdr, Lh; lia).
      unfold certify_hdr_bytes. rewrite app_assoc. rewrite slice_mid; [reflexivity|]. rewrite app_length, length_ok_hdr, Lh. reflexivity.
  Qed.
  Lemma export_created d loc w n w' : wf cf (w_st w) -> N.testbit (dc_flags d) 23 = true -> N.testbit (dc_flags d) 24 = false ->
    exec (CmdDeriveContext d) loc w = (Ok n, w') ->
    exists u ueid cr w0 w1, (ueid_get u = Some ueid /\ exists p p', po_ueid po p = (inl u, p')) /\ w_st w0 = w_st w /\ w_out w0 = w_out w /\
      create_cert cf C P co po KindExported (export_args cf d loc (w_st w) ueid) exported_hdr_size w0 = (Ok cr, w1) /\
      n = N.of_nat exported_hdr_size + cr_size cr /\ skipn exported_hdr_size (w_out w') = skipn exported_hdr_size (w_out w1) /\
      slice (w_out w') (exported_hdr_size - 4) 4 = le_bytes 4 (cr_size cr) /\
      slice (w_out w') 44 32 = to_buf 32 (cr_exported cr).
  Proof.
    intros W B23 B24 H. cbn [exec_command] in H.
    apply exec_derive_inv in H as [(_ & N & _)|[(s' & bs & Hd & H)|[(s' & bs & Hd & H)|(s' & w2 & cr & ph & Hd & H)]]].
    - exfalso; eapply N; reflexivity.
    - exfalso. destruct Hd as (i & c0 & c' & dg & _ & Hr & _). unfold df_recursive in Hr. rewrite contains_bit in Hr. congruence.
    - exfalso. apply (child_done_spec cf C P co Hcf) in Hd as (_ & B & _); [congruence|exact W].
    - destruct Hd as (p & pc & pc' & u & ue & w1 & (_ & Hf & Hp & _) & _ & _ & _ & _ & Ht & Hst & Ho & Hu & Hrun & Hs).
      rewrite run_create in Hrun. exists u, ue, cr, w1, w2. split; [exact Hu|]. split; [exact Hst|]. split; [exact Ho|].
      destruct H as [Hw [(Hl & Hn & Hout)|(_ & X & _)]]; [|discriminate]. cbv zeta in Hout, Hl. apply ok_inj in Hn.
      split; [exact Hrun|]. split; [exact Hn|].
      assert (L : length ph = 16%nat).
      { destruct Hs as [(_ & _ & ->)|(_ & _ & Hdd & pd & Hpd & ->)].
          - destruct Ht as [[_ R]|[_ ->]]; [|reflexivity]. eapply rolled_len; [|exact R]. eapply handle_len; eauto.
          - apply (destroy_spec cf Hcf) in Hdd; [|apply W]. destruct Hdd as (t & Hft & _ & _ & Hpr).
            destruct (Hpr p pc Hp) as (x & Hx & K1 & _). rewrite (at_det _ _ _ _ Hpd Hx).
            assert (t = p).
            { destruct Hf as [Hn1 Hl1], Hft as [Hn2 Hl2]. destruct (lt_eq_lt_dec t p) as [[?|?]|?]; auto.
              - exfalso; eapply Hl1; eauto.
              - exfalso; eapply Hl2; eauto. }
            subst t. destruct (K1 (doomed_target _ _)) as (_ & -> & _). reflexivity. }
      assert (HB : length (exported_hdr_bytes cf invalid_handle ph (to_buf exported_cdi_size (cr_exported cr)) (cr_size cr)) = exported_hdr_size).
      { unfold exported_hdr_bytes. rewrite !app_length, length_ok_hdr, L, length_le_bytes, length_to_buf. reflexivity. }
      split; [rewrite Hout; apply skip_overwrite, HB|]. rewrite Hout. split.
      + rewrite <- HB, slice_overwrite.
        * unfold exported_hdr_bytes. rewrite !app_assoc. apply slice_last, length_le_bytes.
        * unfold exported_hdr_bytes. rewrite !app_length, length_le_bytes. lia.
      + change exported_cdi_size with 32%nat in *.
        rewrite slice_overwrite by (rewrite HB; apply Nat.leb_le; reflexivity).
        unfold exported_hdr_bytes. rewrite !app_assoc, <- (app_assoc _ (to_buf 32 _)).
        assert (L3 : length ((ok_hdr_bytes cf ++ invalid_handle) ++ ph) = 44%nat) by (rewrite !app_length, length_ok_hdr, L; reflexivity).
        pose proof (slice_mid _ (to_buf 32 (cr_exported cr)) (le_bytes 4 (cr_size cr)) 44 L3) as Q.
        rewrite length_to_buf in Q. exact Q.
  Qed.
End Cmd.
