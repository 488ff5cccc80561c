(** RefSize.v -- how large the certificates and requests of the reference platform and
    back end are. *)
From Verif Require Import Base Errors Types StateOps Env Wire Instance Commands RespBuf Response X509 X509Cert RustCrypto DefaultPlatform Simulator
  Lib Spec Exec Effects Forest History WireSpec Contract Codec Steps Reach CommandSpecs Responses Execute Walk Measure Reasons Explain Avail Der DerProofs X509Run X509Spec
  X509Bytes X509Enc X509Tbs X509Cms X509Out X509Proper X509Gen X509Read X509ReadOk X509Made X509Cmd X509Facts X509Size X509Width
  X509Odd X509Fit X509Fail X509Sane PlatformProofs RustProofs RefFaults ExactSize.
Open Scope N_scope.

(** The sizes of signature elements: BIT STRING and OCTET STRING. *)
Definition bits_range (p : profile) (b : N) : Prop :=
  match p with P256Sha256 => 11 <= b <= 75 | P384Sha384 => 11 <= b <= 107 | Mldsa87 => b = 4632 end.
Definition octets_range (p : profile) (o : N) : Prop :=
  match p with P256Sha256 => 10 <= o <= 74 | P384Sha384 => 10 <= o <= 106 | Mldsa87 => o = 4631 end.

Lemma der_uint_pos v : 1 <= len (der_uint v).
Proof.
  unfold der_uint. destruct (be_min v) as [|b l] eqn:E; [vm_compute; discriminate|]. destruct (N.ltb b 128); rewrite ?len_cons; lia.
Qed.
Lemma sig_value_least r s : 8 <= len (E (ecdsa_sig_value r s)).
Proof.
  unfold ecdsa_sig_value, INTEGER, SEQUENCE. rewrite len_E_cons, !len_E_list, len_E_nil, !len_E_prim.
  pose proof (der_uint_pos r) as H1. pose proof (der_uint_pos s) as H2. pose proof (gss_ge (len (der_uint r))). pose proof (gss_ge (len (der_uint s))).
  match goal with |- _ <= gss ?x => pose proof (gss_ge x) end. lia.
Qed.
Lemma bits_in p g : sig_of p g -> bits_range p (len (E (signature_bits g))).
Proof.
  intros H. pose proof (bits_room p g H) as M. unfold bits_range, bits_max in *.
  destruct p, g as [r s|r s|b]; cbn [sig_of] in H; try contradiction; (split || idtac).
  - unfold signature_bits, BITS_OF. rewrite len_E_wrap, len_E_list, len_E_nil. change (len [0]) with 1.
    match goal with |- _ <= gss (1 + (len (E ?v) + 0)) => pose proof (sig_value_least (be_val (to_buf 32 r)) (be_val (to_buf 32 s))); pose proof (gss_ge (1 + (len (E v) + 0))) end. lia.
  - exact M.
  - unfold signature_bits, BITS_OF. rewrite len_E_wrap, len_E_list, len_E_nil. change (len [0]) with 1.
    match goal with |- _ <= gss (1 + (len (E ?v) + 0)) => pose proof (sig_value_least (be_val (to_buf 48 r)) (be_val (to_buf 48 s))); pose proof (gss_ge (1 + (len (E v) + 0))) end. lia.
  - exact M.
  - unfold signature_bits, BITS. rewrite len_E_prim, len_cons, length_to_vec. reflexivity.
Qed.
Lemma octets_in p g : sig_of p g -> octets_range p (len (E (signature_octets g))).
Proof.
  intros H. pose proof (octets_room p g H) as M. unfold octets_range, octets_max in *.
  destruct p, g as [r s|r s|b]; cbn [sig_of] in H; try contradiction; (split || idtac).
  - unfold signature_octets, OCTETS_OF. rewrite len_E_wrap, len_E_list, len_E_nil. change (len []) with 0.
    match goal with |- _ <= gss (0 + (len (E ?v) + 0)) => pose proof (sig_value_least (be_val (to_buf 32 r)) (be_val (to_buf 32 s))); pose proof (gss_ge (0 + (len (E v) + 0))) end. lia.
  - exact M.
  - unfold signature_octets, OCTETS_OF. rewrite len_E_wrap, len_E_list, len_E_nil. change (len []) with 0.
    match goal with |- _ <= gss (0 + (len (E ?v) + 0)) => pose proof (sig_value_least (be_val (to_buf 48 r)) (be_val (to_buf 48 s))); pose proof (gss_ge (0 + (len (E v) + 0))) end. lia.
  - exact M.
  - unfold signature_octets, OCTETS. rewrite len_E_prim, length_to_vec. reflexivity.
Qed.

Lemma to_vec_id n l : (length l <= n)%nat -> all_bytes l -> to_vec n l = l.
Proof.
  intros H B. unfold to_vec. rewrite firstn_all2 by exact H. induction B as [|b l Hb _ IH]; [reflexivity|]. cbn [map]. rewrite IH by (cbn [length] in H; lia).
  f_equal. apply N.mod_small. exact Hb.
Qed.

Section RefSize.
  Variable cf : config.
  Hypothesis Hcf : config_ok cf.
  Context {R : Type}.
  Variable pr : primitives R.
  Variable dig : digest_alg.
  Variables chain issuer serial ski : bytes.
  Hypothesis Fit : artifacts_fit chain issuer serial ski.
  Hypothesis HBI : all_bytes issuer.
  Hypothesis HBS : all_bytes serial.
  Notation co := (rust_ops R pr (profile_alg (prof cf)) dig).
  Notation po := (default_platform chain issuer serial ski).
  Notation world := (world (rust_c R) unit).
  Notation exec := (exec_command cf (rust_c R) unit co po (x509_gen cf (rust_c R) unit co po)).

  Lemma ref_signer p sid p' : po_signer_identifier po p = (inl sid, p') -> cap_sid sid = IssuerAndSerialNumber issuer serial.
  Proof.
    destruct Fit as (_ & F1 & F2 & _). cbn [po_signer_identifier default_platform]. unfold default_signer_identifier, default_issuer_name.
    rewrite repeat_length. unfold max_issuer_name_size, max_sn_size. destruct (Nat.ltb_spec 128 (length issuer)); [lia|].
    destruct (N.ltb_spec (N.of_nat 128) (N.of_nat (length issuer))); [lia|]. destruct (Nat.ltb_spec 20 (length serial)); [lia|].
    intros E. assert (ES : sid = IssuerAndSerialNumber (firstn (N.to_nat (N.of_nat (length issuer))) (issuer ++ skipn (length issuer) (repeat 0 128))) serial) by congruence.
    rewrite ES, Nat2N.id, firstn_app, firstn_all, Nat.sub_diag, firstn_O, app_nil_r. cbn [cap_sid]. unfold max_issuer_name_size, max_sn_size.
    rewrite !to_vec_id by (assumption || lia). reflexivity.
  Qed.
  Lemma ref_drafted k a x w w' : drafted cf (rust_c R) unit co po k a x w w' ->
    (kind_csr k = false -> dr_issuer x = issuer) /\ dr_san x = None /\ dr_sid x = IssuerAndSerialNumber issuer serial /\
    len (cv_not_before (dr_validity x)) = 15 /\ len (cv_not_after (dr_validity x)) = 15.
  Proof.
    intros (w1 & w2 & w3 & w4 & w5 & w6 & w7 & w8 & v & sid & _ & _ & _ & _ & _ & _ & ES & EV & Ev & EI & Esid & EU).
    destruct Fit as (_ & F1 & F2 & _). split; [|split; [|split]].
    - intros HC. rewrite HC in EU. unfold get_issuer_name in EU. cbn [po_issuer_name default_platform] in EU. unfold default_issuer_name in EU.
      rewrite repeat_length in EU. unfold max_issuer_name_size in EU. destruct (Nat.ltb_spec 128 (length issuer)); [lia|].
      apply (f_equal fst) in EU. cbn [fst] in EU. destruct (N.ltb _ _) in EU; [discriminate|]. apply ok_inj in EU. rewrite <- EU, Nat2N.id.
      rewrite to_buf_id; [|rewrite app_length, skipn_length, repeat_length; lia|apply all_bytes_app; split; [exact HBI|apply all_bytes_skipn, Forall_forall; intros y Hy; apply repeat_spec in Hy; subst y; reflexivity]].
      rewrite firstn_app, firstn_all, Nat.sub_diag, firstn_O, app_nil_r. reflexivity.
    - unfold get_subject_alt_name in ES. cbn [po_subject_alt_name default_platform] in ES. apply (f_equal fst) in ES. cbn [fst] in ES. apply ok_inj in ES. congruence.
    - rewrite Esid. unfold platform in EI. destruct (po_signer_identifier po (w_p w7)) as [[s1|e] p1] eqn:E0; [|discriminate].
      apply (f_equal fst) in EI. cbn [fst] in EI. apply ok_inj in EI. subst s1. eapply ref_signer. exact E0.
    - rewrite Ev. unfold platform in EV. cbn [po_cert_validity default_platform] in EV. apply (f_equal fst) in EV. cbn [fst] in EV. apply ok_inj in EV. rewrite <- EV.
      split; reflexivity.
  Qed.


  Lemma chain_sized s i cts : wf cf s -> lineage s i cts -> N.of_nat (tci_size cf) = digest_size (prof cf) -> Forall (sized_entry (prof cf)) cts.
  Proof.
    intros W L HD. apply Forall_forall. intros c Hc. pose proof (lineage_slots cf s i cts W L c Hc) as B.
    pose proof (so_current _ _ _ B) as [H1 _]. pose proof (so_cumulative _ _ _ B) as [H2 _]. unfold sized_entry, len.
    rewrite H1, H2. split; [exact HD|]. split; [exact HD|].
    pose proof (so_svn _ _ _ B) as HS. unfold svn_octets, len. pose proof (uint_len (tci_svn (c_tci c)) HS). lia.
  Qed.
  Hypothesis digest_width : N.of_nat (tci_size cf) = digest_size (prof cf).

  Hypothesis HK : keys_fit cf co.
  Hypothesis HG : signatures_fit cf co.

  Lemma create_cert_exact a off w r w' i cts :
    create_cert cf (rust_c R) unit co po KindX509 a off w = (Ok r, w') -> wf cf (w_st w) ->
    first_slot (names (w_st w) (ca_handle a) (ca_locality a)) i -> lineage (w_st w) i cts -> even_svns cts ->
    ca_critical a = false -> len (ca_ueid a) <= 48 ->
    exists b, bits_range (prof cf) b /\
      cr_size r = cert_octets (prof cf) (len issuer) (len (ca_ueid a)) (chain_size (prof cf) (sup_recursive (st_support (w_st w))) cts) b /\
      (off + N.to_nat (cr_size r) <= length (w_out w))%nat.
  Proof.
    intros H W HF HL HE HCr HU.
    assert (HKr : key_of (prof cf) (cr_pubkey r)).
    { destruct (made_inv _ _ _ _ _ _ _ _ _ H) as (x & wd & n & wr & HD & _ & _ & _ & _ & _ & Epk & _). rewrite Epk. eapply drafted_key; eauto. }
    apply (certificate_made cf Hcf) in H as (x & wd & HD & Ek & T); [|reflexivity|exact W|exact HKr].
    destruct (ref_drafted _ _ _ _ _ HD) as (EI & ESan & _ & V1 & V2). specialize (EI eq_refl).
    pose proof (drafted_idx _ _ _ _ _ _ _ _ _ HD HF) as Ei. rewrite Ei in T.
    destruct (T cts (Opaque issuer) HL HE) as (g & Hg & En & Hroom & _ & _ & Wd); [rewrite EI; reflexivity|]. clear T.
    cbv zeta in *. exists (len (E (signature_bits g))).
    split; [apply bits_in; eapply (proj1 HG); exact Hg|]. split; [|exact Hroom]. rewrite En.
    pose proof (drafted_bytes _ _ _ _ _ _ _ _ _ _ HD) as B. destruct (db_subject _ _ B) as (dg & Esub). destruct (db_aki _ _ B) as [_ LA].
    pose proof (chain_sized _ _ _ W HL digest_width) as CS.
    rewrite <- enc_E by (apply wide_below in Wd; eapply N.lt_trans; [exact Wd|reflexivity]).
    unfold output_tbs in *. rewrite Esub in *. cbn [nm_serial ds_bytes] in *.
    apply cert_exact; try assumption; [rewrite <- Ek; exact HKr|reflexivity|].
    rewrite exts_exact; cbn [output_exts xd_critical xd_ca xd_san xd_ueid xd_aki kind_exported]; try assumption; [|reflexivity|unfold len; rewrite LA; reflexivity].
    unfold output_recursive. cbn [kind_exported]. rewrite chain_exact by exact CS. reflexivity.
  Qed.

  Lemma create_request_exact a off w r w' i cts :
    create_cert cf (rust_c R) unit co po KindCsr a off w = (Ok r, w') -> wf cf (w_st w) ->
    first_slot (names (w_st w) (ca_handle a) (ca_locality a)) i -> lineage (w_st w) i cts -> even_svns cts ->
    ca_critical a = false -> len (ca_ueid a) <= 48 ->
    exists b o, bits_range (prof cf) b /\ octets_range (prof cf) o /\
      cr_size r = request_octets (prof cf) (len issuer) (len (tlv code_len 2 (code_int serial))) (len (ca_ueid a))
                    (chain_size (prof cf) (sup_recursive (st_support (w_st w))) cts) b o /\
      (off + N.to_nat (cr_size r) <= length (w_out w))%nat.
  Proof.
    intros H W HF HL HE HCr HU.
    assert (HKr : key_of (prof cf) (cr_pubkey r)).
    { destruct (made_inv _ _ _ _ _ _ _ _ _ H) as (x & wd & n & wr & HD & _ & _ & _ & _ & _ & Epk & _). rewrite Epk. eapply drafted_key; eauto. }
    apply (request_made cf Hcf) in H as (x & wd & HD & Ek & T); [|reflexivity|exact W|exact HKr].
    destruct (ref_drafted _ _ _ _ _ HD) as (_ & ESan & ESid & V1 & V2).
    pose proof (drafted_idx _ _ _ _ _ _ _ _ _ HD HF) as Ei. rewrite Ei in T. rewrite ESid in T.
    destruct (T cts (sid_der (IssuerAndSerialNumber issuer serial)) HL HE eq_refl) as (g1 & c1 & g2 & Hg1 & Hg2 & En & Hroom & _ & _ & Wd). clear T.
    cbv zeta in *. exists (len (E (signature_bits g1))), (len (E (signature_octets g2))).
    split; [apply bits_in; apply (draft_cb_sig cf co HG KindCsr a x (SDBuffer (enc (output_info cf KindCsr a (w_st w) cts x))) true _ _ _ Hg1)|].
    split; [apply octets_in; eapply (proj1 HG); exact Hg2|]. split; [|exact Hroom].
    pose proof (drafted_bytes _ _ _ _ _ _ _ _ _ _ HD) as B. destruct (db_subject _ _ B) as (dg & Esub). destruct (db_aki _ _ B) as [_ LA].
    pose proof (chain_sized _ _ _ W HL digest_width) as CS.
    rewrite En in *. rewrite <- enc_E by (eapply N.lt_trans; [exact Wd|reflexivity]).
    unfold output_info in *. rewrite Esub in *. cbn [nm_serial ds_bytes syntax_version] in *.
    apply request_exact; [rewrite <- Ek; exact HKr|].
    rewrite exts_exact; cbn [output_exts xd_critical xd_ca xd_san xd_ueid xd_aki kind_exported]; try assumption; [|reflexivity|unfold len; rewrite LA; reflexivity].
    unfold output_recursive. cbn [kind_exported]. rewrite chain_exact by exact CS. reflexivity.
  Qed.
End RefSize.
