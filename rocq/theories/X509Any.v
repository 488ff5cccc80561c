(** X509Any.v -- what is signed in an output, whether its SVNs are even or not. *)
From Verif Require Import Base Errors Types Env StateOps Wire Instance Commands X509 X509Cert Lib Der DerProofs X509Run X509Spec
  X509Bytes X509Enc X509Tbs X509Cms Spec Exec Forest Codec Walk Measure X509Out X509Proper X509Gen X509Read X509ReadOk X509Made
  X509Total X509Sane X509Cmd X509Odd.
Open Scope N_scope.

(** The message, with any bytes as the request in it. *)
Lemma read_signer_bytes p v csr sid g : let m := content_info (signed_data p v csr (signer_info p v sid g)) in
  proper (signer_info p v sid g) -> all_bytes (enc csr) -> small m -> sid_version (flat sid) = Some v ->
  read_signer p (enc m) = Some (enc (flat sid), flat (signature_octets g)).
Proof.
  intros m HP HB HS HV. unfold m, small in *. clear m. rewrite content_opaque in *.
  match goal with |- read_signer _ (enc ?t) = _ => set (m' := t) in * end.
  assert (PM : proper m') by (apply proper_content_info; prop; try apply proper_alg; try exact HB; try exact HP).
  unfold read_signer. rewrite (decode_enc _ PM HS). cbn [obind].
  unfold m', content_info. change (SEQUENCE ?l) with (Cons 0x30 l). rewrite members_flat. cbn [obind map].
  unfold CTX. change (160 + 0) with 0xA0. rewrite read_one_flat. cbn [obind].
  rewrite members_flat. cbn [obind map]. unfold SET. rewrite !read_one_flat. cbn [obind].
  unfold signer_info. change (SEQUENCE ?l) with (Cons 0x30 l). rewrite members_flat. cbn [obind map].
  rewrite HV. cbn [obind]. rewrite !is_int_self, !is_alg_self. reflexivity.
Qed.

Section Any.
  Variable cf : config.
  Hypothesis Hcf : config_ok cf.
  Context {C P : Type}.
  Variable co : crypto_ops C.
  Variable po : platform_ops P.

  Theorem certificate_any k a off w r w' i cts :
    create_cert cf C P co po k a off w = (Ok r, w') -> kind_csr k = false ->
    wf cf (w_st w) -> keys_fit cf co -> issuer_der po ->
    first_slot (names (w_st w) (ca_handle a) (ca_locality a)) i -> lineage (w_st w) i cts ->
    let b := firstn (N.to_nat (cr_size r)) (skipn off (w_out w')) in
    exists serial idn v name exts g c,
      let tbs := SEQUENCE [ CTX 0 [INTEGER 2]; INTEGER serial; alg_id (sig_alg_oid (prof cf)); idn; v; name;
                            subject_public_key_info (cr_pubkey r); Opaque exts ] in
      len b = cr_size r /\ b = enc (signed (prof cf) tbs g) /\ Forall proper [idn; v; name] /\
      co_sign_with_alias co (SDBuffer (enc tbs)) c = (inl g, w_c w').
  Proof.
    intros H HC W HK HI HF HL b.
    assert (HKr : key_of (prof cf) (cr_pubkey r)).
    { pose proof (made_inv cf co po _ _ _ _ _ _ H) as (x & wd & n & wr & HD & _ & _ & _ & _ & _ & Epk & _).
      rewrite Epk. eapply drafted_key; eauto. }
    apply certificate_made_around in H as (x & wd & HD & Ek & T); [|assumption..].
    destruct (drafted_issuer cf co po _ _ _ _ _ HI HC HD) as (idn & HP & HQ).
    pose proof (drafted_idx cf co po _ _ _ _ _ _ HD HF) as Ei. subst i.
    assert (RX : exists ex, rexts cf (ca_critical a) (draft_md k a (w_st w) x) true = Ok (E (Opaque ex))).
    { destruct (even_dec cts) as [HE|HE].
      - eexists. rewrite (rexts_even cf Hcf (w_st w) W (dr_idx x) cts HL (draft_md k a (w_st w) x) eq_refl eq_refl (ca_critical a) HE). reflexivity.
      - destruct (rexts_odd cf Hcf (w_st w) W (dr_idx x) cts HL (draft_md k a (w_st w) x) eq_refl eq_refl (ca_critical a) HE) as (ex & Hb & _). exists ex. exact Hb. }
    destruct RX as [ex RX]. destruct (T (Opaque ex) idn RX HQ) as (g & Hg & En & HB & HO & _ & _). clear T.
    cbv zeta in *. pose proof (drafted_bytes _ _ _ _ _ _ _ _ _ _ HD) as B.
    pose proof (tbs_fields cf k x idn B HP) as PF. rewrite Ek.
    assert (EB : b = enc (signed (prof cf) (tbs_around cf x idn (Opaque ex)) g)) by (unfold b; rewrite HO; apply cut; assumption).
    do 7 eexists. split; [rewrite EB; symmetry; exact En|]. split; [exact EB|]. split; [|exact Hg].
    rewrite Forall_forall in *. intros y Hy. apply PF. cbn [In] in *. tauto.
  Qed.

  Theorem request_any k a off w r w' i cts :
    create_cert cf C P co po k a off w = (Ok r, w') -> kind_csr k = true ->
    wf cf (w_st w) -> all_bytes (ca_ueid a) -> keys_fit cf co -> signer_der po ->
    first_slot (names (w_st w) (ca_handle a) (ca_locality a)) i -> lineage (w_st w) i cts ->
    let b := firstn (N.to_nat (cr_size r)) (skipn off (w_out w')) in
    exists name attrs d g1 g2 c1 c2 sid,
      let info := SEQUENCE [INTEGER 0; name; subject_public_key_info (cr_pubkey r); Opaque attrs] in
      let csr := enc (signed (prof cf) info g1) in
      len b = cr_size r /\ proper name /\ read_content b = Some csr /\
      (exists w1, compute_measurement_hash cf C P co po i w = (Ok d, w1)) /\
      sign_with_derived C co d (ca_cdi_label a) (ca_key_label a) (ca_context a) (SDBuffer (enc info)) c1 = (inl g1, c2) /\
      co_sign_with_alias co (SDBuffer csr) c2 = (inl g2, w_c w') /\
      read_signer (prof cf) b = Some (sid, flat (signature_octets g2)) /\ platform_signer po sid.
  Proof.
    intros H HC W HU HK HI HF HL b.
    assert (HKr : key_of (prof cf) (cr_pubkey r)).
    { pose proof (made_inv cf co po _ _ _ _ _ _ H) as (x & wd & n & wr & HD & _ & _ & _ & _ & _ & Epk & _).
      rewrite Epk. eapply drafted_key; eauto. }
    apply request_made_around in H as (x & wd & HD & Ek & T); [|assumption..].
    destruct (drafted_sid cf co po _ _ _ _ _ HI HD) as (sidt & HP & HQ & HV & HR).
    destruct (drafted_signer cf co po _ _ _ _ _ HD) as (pp & sd & pp' & HP1 & HP2).
    pose proof (drafted_idx cf co po _ _ _ _ _ _ HD HF) as Ei. subst i.
    pose proof (drafted_bytes _ _ _ _ _ _ _ _ _ _ HD) as B.
    assert (HMd : md_bytes (w_st w) (draft_md k a (w_st w) x)) by (apply draft_md_bytes; assumption).
    assert (RX : exists ex, rattrs cf (ca_critical a) (draft_md k a (w_st w) x) = Ok (E (Opaque ex))).
    { destruct (even_dec cts) as [HE|HE].
      - eexists. rewrite (rattrs_even cf Hcf (w_st w) W (dr_idx x) cts HL (draft_md k a (w_st w) x) eq_refl eq_refl (ca_critical a) HE). reflexivity.
      - destruct (rattrs_odd cf Hcf (w_st w) W (dr_idx x) cts HL (draft_md k a (w_st w) x) eq_refl eq_refl (ca_critical a) HE) as (ex & Hb & _). exists ex. exact Hb. }
    destruct RX as [ex RX]. pose proof (bytes_rattrs cf _ _ _ W HMd _ RX) as BB.
    destruct (T (Opaque ex) sidt RX HQ) as (g1 & c1 & g2 & Hg1 & Hg2 & En & HB & HO & Wt & Ws). clear T.
    cbv zeta in *. rewrite Ek.
    set (info := info_around x (Opaque ex)) in *. set (csr := signed (prof cf) info g1) in *.
    set (v := syntax_version (dr_sid x)) in *. set (si := signer_info (prof cf) v sidt g2) in *. rewrite En in Ws.
    assert (LC : len (enc csr) < 65540).
    { apply N.le_lt_trans with (2 := Ws). unfold len. apply content_len. }
    assert (BC : all_bytes (enc csr)).
    { assert (EE : E csr = enc csr) by (apply enc_E; lia). rewrite <- EE. apply bytey_E.
      unfold csr, signed, SEQUENCE. apply bytey_kids; [reflexivity|]. apply Forall_cons.
      - unfold info, info_around, SEQUENCE. apply bytey_kids; [reflexivity|]. unfold info_items.
        pose proof (info_fields k x B) as HF3. inversion_clear HF3 as [|? ? F1 HF2]. inversion_clear HF2 as [|? ? F2 HF1].
        inversion_clear HF1 as [|? ? F3 _].
        repeat (apply Forall_cons; [first [apply proper_bytey; assumption|exact BB]|]). apply Forall_nil.
      - apply Forall_cons; [apply proper_bytey, proper_alg|]. apply Forall_cons; [apply proper_bytey, proper_sig_bits|apply Forall_nil]. }
    assert (PS : proper si) by (apply proper_signer_info, HP).
    assert (SM : small (content_info (signed_data (prof cf) v csr si))).
    { apply (small_below _ 65540); [exact Ws|]. apply N.leb_le. vm_compute. reflexivity. }
    assert (EB : b = enc (content_info (signed_data (prof cf) v csr si))) by (unfold b; rewrite HO; apply cut; assumption).
    exists (name_der (dr_subject x)), ex, (dr_digest x), g1, g2, (w_c wd), c1, (enc sidt).
    split; [rewrite EB; symmetry; exact En|]. split; [exact (draft_name_proper k x B)|].
    split; [rewrite EB; apply read_content_bytes; assumption|]. split.
    { destruct HD as (w1 & w2 & w3 & w4 & w5 & w6 & w7 & w8 & vv & sid & _ & E1 & _). exists w1. exact E1. }
    split; [exact Hg1|]. split; [exact Hg2|]. split; [rewrite EB; unfold si; rewrite read_signer_bytes by assumption; rewrite enc_flat; reflexivity|].
    exists pp, sd, pp'. rewrite <- HP2. split; [exact HP1|]. apply HR.
    pose proof SM as SQ. unfold si, content_info, signed_data, signer_info, CTX, SET in SQ.
    eapply small_kid_cons in SQ; [|right; left; reflexivity]. eapply small_kid_cons in SQ; [|left; reflexivity].
    eapply small_kid_cons in SQ; [|do 3 right; left; reflexivity]. eapply small_kid_cons in SQ; [|left; reflexivity].
    eapply small_kid_cons in SQ; [|right; left; reflexivity]. exact SQ.
  Qed.
End Any.
