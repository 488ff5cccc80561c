(** X509Fit.v -- how long the outputs of [create_cert] and of the commands can get, and
    that a larger response buffer never changes what a command does. *)
From Verif Require Import Base Errors Types StateOps Env Wire Instance Commands Response Lib Spec Exec Effects Forest History Contract Codec Steps Reach CommandSpecs
  Responses Execute Walk Measure Der DerProofs X509 X509Cert X509Run X509Spec X509Bytes X509Enc X509Tbs X509Cms X509Out X509Proper X509Gen X509Read
  X509ReadOk X509Made X509Total X509Sane X509Cmd X509Facts X509Size.
Open Scope N_scope.
Open Scope dpe_scope.

(** ** What the environment must deliver *)

(** Signatures of the profile's algorithm. *)
Definition signatures_fit (cf : config) {C} (co : crypto_ops C) : Prop :=
  (forall d c g c', co_sign_with_alias co d c = (inl g, c') -> sig_of (prof cf) g) /\
  (forall d c g c', co_signer_sign co d c = (inl g, c') -> sig_of (prof cf) g).

(** Names of the platform: at most [a] bytes for the issuer, of a certificate and of
    the signer of a request, and an alternative name of at most [b] bytes including the
    19 bytes around it. *)
Definition names_room {P} (po : platform_ops P) (a b : N) : Prop :=
  (forall p n buf p', po_issuer_name po (repeat 0 128) p = (inl n, buf, p') -> n <= a) /\
  (forall p i n p', po_signer_identifier po p = (inl (IssuerAndSerialNumber i n), p') -> len i <= a) /\
  (forall p o p', po_subject_alt_name po p = (inl o, p') -> len (on_oid o) + len (on_value o) + 19 <= b).

Lemma to_vec_le n l : len (to_vec n l) <= len l.
Proof. unfold len, to_vec. rewrite map_length, firstn_length. lia. Qed.

Section Fit.
  Variable cf : config.
  Hypothesis Hcf : config_ok cf.
  Context {C P : Type}.
  Variable co : crypto_ops C.
  Variable po : platform_ops P.
  Notation world := (world C P).
  Notation exec := (exec_command cf C P co po (x509_gen cf C P co po)).
  Notation drafted := (drafted cf C P co po).
  Hypothesis Hkeys : keys_fit cf co.
  Hypothesis Hsigs : signatures_fit cf co.

  Lemma draft_cb_sig k a x data der c g c' : draft_cb C co k a x data der c = (inl g, c') -> sig_of (prof cf) g.
  Proof.
    unfold draft_cb, sign_cb. destruct Hsigs as [HA HD]. destruct der.
    - destruct (kind_exported k).
      + destruct (dr_exported x) as [h|]; [|discriminate]. unfold cseq.
        destruct (co_derive_key_pair_exported co h _ _ c) as [[u|e] c1]; [|discriminate]. apply HD.
      + unfold sign_with_derived, cseq.
        destruct (co_derive_cdi co _ _ _) as [[u|e] c1]; [|discriminate].
        destruct (co_derive_key_pair co _ _ _) as [[u2|e] c2]; [|discriminate]. apply HD.
    - apply HA.
  Qed.

  Variables A B : N.
  Hypothesis Hnames : names_room po A B.

  Lemma drafted_names k a x w w' : drafted k a x w w' ->
    (kind_csr k = false -> len (dr_issuer x) <= A) /\ san_room (dr_san x) <= B /\
    match dr_sid x with IssuerAndSerialNumber i n => len i <= A | _ => True end.
  Proof.
    intros (w1 & w2 & w3 & w4 & w5 & w6 & w7 & w8 & v & sid & _ & _ & _ & _ & _ & _ & ES & _ & _ & EI & Esid & EU).
    destruct Hnames as (H1 & H2 & H3). split; [|split].
    - intros HC. rewrite HC in EU. unfold get_issuer_name in EU. change max_issuer_name_size with 128%nat in EU.
      destruct (po_issuer_name po (repeat 0 128) (w_p w8)) as [[[n|e] b] p] eqn:E0; [|discriminate].
      apply H1 in E0. apply (f_equal fst) in EU. cbn [fst] in EU. destruct (N.ltb _ n); [discriminate|]. apply ok_inj in EU.
      rewrite <- EU. unfold len. rewrite firstn_length. lia.
    - unfold get_subject_alt_name in ES. destruct (po_subject_alt_name po (w_p w5)) as [[o|e] p] eqn:E0.
      + apply H3 in E0. apply (f_equal fst) in ES. cbn [fst] in ES. apply ok_inj in ES. rewrite <- ES. cbn [san_room cap_other_name on_oid on_value].
        pose proof (to_vec_le (length (on_oid o)) (on_oid o)). pose proof (to_vec_le max_other_name_size (on_value o)). lia.
      + destruct e; apply (f_equal fst) in ES; cbn [fst] in ES; try discriminate ES. apply ok_inj in ES. rewrite <- ES. cbn [san_room]. lia.
    - rewrite Esid. unfold platform in EI. destruct (po_signer_identifier po (w_p w7)) as [[s1|e] p1] eqn:E0; [|discriminate].
      apply (f_equal fst) in EI. cbn [fst] in EI. apply ok_inj in EI. subst s1. destruct sid as [i n|kid]; [|exact I]. cbn [cap_sid].
      apply H2 in E0. pose proof (to_vec_le max_issuer_name_size i). lia.
  Qed.

  Hypothesis HB : B <= 100.
  Hypothesis HA : A <= 128.

  Let d := N.of_nat (tci_size cf).
  Definition chain_max (k : cert_kind) (s : state) (cts : list context) : N :=
    info_max d (if kind_exported k then false else sup_recursive (st_support s)) * N.of_nat (length cts).

  Lemma certificate_size k a off w r w' i cts :
    create_cert cf C P co po k a off w = (Ok r, w') -> kind_csr k = false -> wf cf (w_st w) ->
    first_slot (names (w_st w) (ca_handle a) (ca_locality a)) i -> lineage (w_st w) i cts -> len (ca_ueid a) <= 48 ->
    cr_size r <= chain_max k (w_st w) cts + (if kind_exported k then 42 else 0) + len (ca_ueid a) + B + A + 322 +
                 2 * alg_max (prof cf) + spki_max (prof cf) + bits_max (prof cf).
  Proof.
    intros H HC W HF HL HU. apply made_inv in H as (x & wd & n & wr & HD & HS & HO & EW & -> & En & Epk & _).
    pose proof (drafted_bytes _ _ _ _ _ _ _ _ _ _ HD) as BY. pose proof (drafted_names _ _ _ _ _ HD) as (N1 & N2 & N3).
    specialize (N1 HC). pose proof (drafted_key cf co po _ _ _ _ _ Hkeys HD) as HK. pose proof (drafted_idx cf co po _ _ _ _ _ _ HD HF) as EI.
    unfold draft_write in EW. rewrite HC in EW.
    pose proof (runs_certificate cf C (draft_cb C co k a x) (ca_critical a) (draft_md k a (w_st w) x)
                  (firstn 20 (ds_bytes (nm_serial (dr_subject x)))) (dr_issuer x) (dr_subject x) (dr_pubkey x) (dr_validity x)
                  (cw_new (skipn off (w_out w)) (w_c wd)) eq_refl) as O.
    specialize (O ltac:(cbn [cw_new cw_back length]; unfold max_backtracks; lia)). unfold outc in O.
    rewrite EW in O. cbn [fst snd] in O. apply fresh_ok in O as (bs & Hf & -> & _ & _).
    rewrite En. destruct (db_subject _ _ BY) as (dg & Esub). pose proof (lineage_bound _ _ _ _ W HL) as LB. destruct Hcf as (HM & _).
    pose proof (cert_len cf Hcf (w_st w) W i cts HL (draft_md k a (w_st w) x) eq_refl EI
                  (draft_cb C co k a x) (fun x0 b c g c' => draft_cb_sig k a x x0 b c g c')
                  (ca_critical a) (dr_subject x) (dr_pubkey x) (len (ca_ueid a)) B HK ltac:(lia) ltac:(cbn [draft_md md_label]; lia) HU) as Q.
    cbn [draft_md md_ski md_aki md_san md_is_ca md_recursive] in Q. fold d in Q.
    specialize (Q ltac:(unfold len; rewrite (proj2 (db_ski _ _ BY)); reflexivity) ltac:(unfold len; rewrite (proj2 (db_aki _ _ BY)); reflexivity) N2 HB).
    specialize (Q ltac:(rewrite Esub; apply name_room, subject_length)).
    specialize (Q (firstn 20 (ds_bytes (nm_serial (dr_subject x)))) (dr_issuer x) (dr_validity x) _ _ _
                  ltac:(unfold len; rewrite firstn_length; lia) ltac:(unfold len; pose proof (db_validity _ _ BY); lia)
                  ltac:(unfold len; pose proof (db_validity _ _ BY); lia) Hf).
    unfold chain_max. lia.
  Qed.

  Lemma request_size k a off w r w' i cts :
    create_cert cf C P co po k a off w = (Ok r, w') -> kind_csr k = true -> wf cf (w_st w) ->
    first_slot (names (w_st w) (ca_handle a) (ca_locality a)) i -> lineage (w_st w) i cts -> len (ca_ueid a) <= 48 ->
    cr_size r <= chain_max k (w_st w) cts + len (ca_ueid a) + B + A + 343 +
                 2 * alg_max (prof cf) + spki_max (prof cf) + bits_max (prof cf) + octets_max (prof cf).
  Proof.
    intros H HC W HF HL HU. apply made_inv in H as (x & wd & n & wr & HD & HS & HO & EW & -> & En & Epk & _).
    pose proof (drafted_bytes _ _ _ _ _ _ _ _ _ _ HD) as BY. pose proof (drafted_names _ _ _ _ _ HD) as (N1 & N2 & N3).
    pose proof (drafted_key cf co po _ _ _ _ _ Hkeys HD) as HK. pose proof (drafted_idx cf co po _ _ _ _ _ _ HD HF) as EI.
    unfold draft_write in EW. rewrite HC in EW.
    pose proof (runs_cms cf (ca_critical a) C (draft_cb C co k a x) (dr_pubkey x) (dr_subject x) (draft_md k a (w_st w) x) (dr_sid x) 2
                  _ (cw_new (skipn off (w_out w)) (w_c wd))
                  (runs_csr cf C (draft_cb C co k a x) (ca_critical a) (draft_md k a (w_st w) x) (dr_subject x) (dr_pubkey x))
                  ltac:(unfold max_backtracks; lia) eq_refl eq_refl) as O.
    unfold outc in O. rewrite EW in O. cbn [fst snd] in O. apply fresh_ok in O as (bs & Hf & -> & _ & _).
    assert (HX : kind_exported k = false) by (destruct k; try reflexivity; discriminate HC).
    rewrite En. destruct (db_subject _ _ BY) as (dg & Esub). pose proof (lineage_bound _ _ _ _ W HL) as LB. destruct Hcf as (HM & _).
    pose proof (message_len cf Hcf (w_st w) W i cts HL (draft_md k a (w_st w) x) eq_refl EI
                  (draft_cb C co k a x) (fun x0 b c g c' => draft_cb_sig k a x x0 b c g c')
                  (ca_critical a) (dr_subject x) (dr_pubkey x) (len (ca_ueid a)) B HK ltac:(lia) ltac:(cbn [draft_md md_label]; lia) HU) as Q.
    cbn [draft_md md_ski md_aki md_san md_is_ca md_recursive] in Q. fold d in Q.
    specialize (Q ltac:(unfold len; rewrite (proj2 (db_ski _ _ BY)); reflexivity) ltac:(unfold len; rewrite (proj2 (db_aki _ _ BY)); reflexivity) N2 HB).
    specialize (Q ltac:(rewrite Esub; rewrite HX; apply (name_room false), subject_length)).
    assert (HSid : match dr_sid x with IssuerAndSerialNumber i0 n0 => len i0 <= A /\ len n0 <= 20 | SubjectKeyIdentifier k0 => len k0 <= 20 end).
    { pose proof (db_sid _ _ BY) as DS. destruct (dr_sid x) as [i0 n0|k0]; unfold len in *; [split; [exact N3|]|]; lia. }
    specialize (Q (dr_sid x) A _ _ _ HX HSid HA Hf). unfold chain_max. lia.
  Qed.
End Fit.

(** ** Sizes of responses *)

(** The features for which build.rs chooses sizes: without ml-dsa it looks at p256
    only, so p256 and p384 must not be compiled in together. *)
Definition sizes_chosen (cf : config) : Prop := feat_mldsa cf = true \/ feat_p256 cf && feat_p384 cf = false.

Lemma max_cert_room cf : (if feat_mldsa cf then 12307 + 158 * N.of_nat (max_handles cf)
                          else if feat_p256 cf then 643 + 126 * N.of_nat (max_handles cf)
                          else 756 + 159 * N.of_nat (max_handles cf)) <= max_cert_size cf.
Proof.
  unfold max_cert_size.
  assert (Q : forall x, x <= 4 * ((x + 3) / 4)).
  { intros x. pose proof (N.div_mod (x + 3) 4 ltac:(lia)). pose proof (N.mod_lt (x + 3) 4 ltac:(lia)). lia. }
  destruct (feat_mldsa cf); [|destruct (feat_p256 cf)]; apply Q.
Qed.

Section Commands.
  Variable cf : config.
  Hypothesis Hcf : config_ok cf.
  Context {C P : Type}.
  Variable co : crypto_ops C.
  Variable po : platform_ops P.
  Notation exec := (exec_command cf C P co po (x509_gen cf C P co po)).

  Lemma room_of cmd : asks_certificate cmd \/ asks_request cmd ->
    response_size cf cmd = (output_start cmd + N.to_nat (max_cert_size cf))%nat.
  Proof.
    intros HA. unfold response_size, response_layout. destruct HA as [HA|HA]; destruct cmd as [|f|dd|c|sg|hh f|hh|o sz|u]; try exact (False_ind _ HA).
    - destruct HA as [H23 _]. unfold df_export_cdi. rewrite contains_bit, H23.
      unfold list_sum, exported_cdi_size, handle_size, output_start. cbn [app fold_right]. lia.
    - destruct c; cbn [certify_profile]; unfold pk_size, list_sum, handle_size, output_start, mldsa87_pk_size; cbn [app fold_right]; lia.
    - destruct c; cbn [certify_profile]; unfold pk_size, list_sum, handle_size, output_start, mldsa87_pk_size; cbn [app fold_right]; lia.
  Qed.

  Lemma lookup_lineage s h loc i : wf cf s -> first_slot (names s h loc) i -> exists cts, lineage s i cts.
  Proof.
    intros W F. eapply lineage_ex; [exact (wf_forest _ _ W)|]. destruct F as [(c & Hc & HN) _]. exists c. split; [exact Hc|]. unfold live. destruct HN as [-> _]. discriminate.
  Qed.

  Lemma created_slot k a off w r w' : create_cert cf C P co po k a off w = (Ok r, w') ->
    exists i, first_slot (names (w_st w) (ca_handle a) (ca_locality a)) i.
  Proof.
    intros H. apply made_inv in H as (x & wd & n & wr & HD & _). destruct HD as (w1 & w2 & w3 & w4 & w5 & w6 & w7 & w8 & v & sid & E0 & _).
    exists (dr_idx x). apply lookup_ok. exact E0.
  Qed.

  Hypothesis Hkeys : keys_fit cf co.
  Hypothesis Hsigs : signatures_fit cf co.
  Hypothesis Hsizes : sizes_chosen cf.

  Lemma label_len cmd u : command_wf cf cmd -> ueid_for po cmd u ->
    (asks_certificate cmd \/ asks_request cmd) -> len u <= (if exports cmd then 48 else match cmd with CmdCertifyKey (CertifyP256 _) => 32 | _ => 48 end).
  Proof.
    intros HC HU HA. destruct cmd as [|f|dd|c|sg|hh f|hh|o sz|uc]; try (destruct HA as [HA|HA]; exact (False_ind _ HA)); cbn [exports].
    - destruct HU as (q & v & q' & _ & HL & ->). unfold len. rewrite firstn_length. lia.
    - destruct c as [c|c|c]; cbn [ueid_for] in HU; subst u; cbn [command_wf] in HC; destruct HC as (_ & _ & _ & HC & _); unfold len; lia.
  Qed.

  Variables A B : N.
  Hypothesis Hnames : names_room po A B.
  Hypothesis HAB : A + B <= 97.

  Lemma certify_for cmd loc w n w' : wf cf (w_st w) -> exec (CmdCertifyKey cmd) loc w = (Ok n, w') -> certify_profile cmd = prof cf.
  Proof.
    intros W H. apply (certify_created cf co po) in H as (cr & w1 & pk & Hc & _ & _ & Hpk & _); [|exact W].
    apply made_inv in Hc as (x & wd & m & wr & HD & _ & _ & _ & _ & _ & Ek & _).
    pose proof (drafted_key cf co po _ _ _ _ _ Hkeys HD) as HK. rewrite <- Ek in HK.
    destruct (certify_profile cmd), (prof cf), (cr_pubkey cr); try reflexivity; try destruct HK; discriminate Hpk.
  Qed.

  (** Every certificate fits into the response. *)
  Theorem certificate_fits cmd loc w n w' : wf cf (w_st w) -> command_wf cf cmd -> asks_certificate cmd ->
    exec cmd loc w = (Ok n, w') -> n <= N.of_nat (response_size cf cmd).
  Proof.
    intros W HC HA H. rewrite (room_of cmd) by (left; exact HA).
    assert (HP : exists h, presents cmd h) by (destruct cmd as [|f|dd|[c|c|c]|sg|hh f|hh|o sz|u]; try exact (False_ind _ HA); eexists; reflexivity).
    destruct HP as [h HP]. pose proof (certify_for) as CF.
    destruct (certificate_command cf Hcf co po cmd loc w n w' h W HC H HA HP) as
      (k & a & cr & w0 & w1 & Hc & Hk & Hx & Eh & El & _ & HU & _ & Ew & _ & -> & _).
    destruct (created_slot _ _ _ _ _ _ Hc) as (i & HF). assert (W0 : wf cf (w_st w0)) by (rewrite Ew; exact W).
    destruct (lookup_lineage _ _ _ _ W0 HF) as (cts & HL). pose proof (label_len cmd _ HC HU (or_introl HA)) as LL.
    pose proof (lineage_bound _ _ _ _ W0 HL) as LB.
    assert (L48 : len (ca_ueid a) <= 48).
    { destruct (exports cmd); [exact LL|]. destruct cmd as [| | |[c|c|c]| | | | |]; lia. }
    pose proof (certificate_size cf Hcf co po Hkeys Hsigs A B Hnames ltac:(lia) ltac:(lia) _ _ _ _ _ _ _ _ Hc Hk W0 HF HL L48) as Q.
    pose proof (max_cert_room cf) as R. destruct Hcf as (HM & HE & _). rewrite Hx in Q. unfold chain_max in Q. rewrite Hx in Q.
    assert (Q2 : cr_size cr <= max_cert_size cf); [|lia].
    destruct cmd as [|f|dd|c|sg|hh f|hh|o sz|u]; try exact (False_ind _ HA).
    - cbn [exports] in *. unfold sizes_chosen, profile_enabled in *. unfold info_max, tci_size, alg_max, spki_max, bits_max in Q. clear - Q R Hsizes HE LB HAB L48 HM.
      destruct (prof cf), (feat_p256 cf), (feat_p384 cf), (feat_mldsa cf); cbn [orb andb] in *; try discriminate HE; try (destruct Hsizes; discriminate);
        change (N.leb (N.of_nat 48) 32) with false in Q; change (N.leb (N.of_nat 32) 32) with true in Q; cbv iota in Q; lia.
    - specialize (CF c loc w _ w' W H). cbn [exports] in *. unfold sizes_chosen, profile_enabled in *. unfold info_max, tci_size, alg_max, spki_max, bits_max in Q.
      assert (LP : len (ca_ueid a) <= match prof cf with P256Sha256 => 32 | _ => 48 end) by (rewrite <- CF; destruct c; exact LL).
      clear - Q R Hsizes HE LB HAB LP HM.
      destruct (prof cf), (feat_p256 cf), (feat_p384 cf), (feat_mldsa cf); cbn [orb andb] in *; try discriminate HE; try (destruct Hsizes; discriminate);
        destruct (sup_recursive _); change (N.leb (N.of_nat 48) 32) with false in Q; change (N.leb (N.of_nat 32) 32) with true in Q; cbv iota in Q; lia.
  Qed.
  (** A request fits when the chain leaves a slot free. *)
  Theorem request_fits cmd loc w n w' h i cts : wf cf (w_st w) -> command_wf cf cmd -> asks_request cmd -> presents cmd h ->
    first_slot (names (w_st w) h loc) i -> lineage (w_st w) i cts -> (length cts < max_handles cf)%nat ->
    exec cmd loc w = (Ok n, w') -> n <= N.of_nat (response_size cf cmd).
  Proof.
    intros W HC HA HP HF HL HLt H. rewrite (room_of cmd) by (right; exact HA).
    pose proof (certify_for) as CF.
    destruct (request_command cf co po cmd loc w n w' h W HC H HA HP) as
      (a & cr & w1 & Hc & Eh & El & _ & HU & _ & _ & _ & _ & -> & _).
    pose proof (label_len cmd _ HC HU (or_intror HA)) as LL.
    assert (L48 : len (ca_ueid a) <= 48).
    { destruct (exports cmd); [exact LL|]. destruct cmd as [| | |[c|c|c]| | | | |]; lia. }
    rewrite <- Eh, <- El in HF.
    pose proof (request_size cf Hcf co po Hkeys Hsigs A B Hnames ltac:(lia) ltac:(lia) _ _ _ _ _ _ _ _ Hc eq_refl W HF HL L48) as Q.
    pose proof (max_cert_room cf) as R. destruct Hcf as (HM & HE & _). unfold chain_max in Q. cbn [kind_exported] in Q.
    assert (Q2 : cr_size cr <= max_cert_size cf); [|lia].
    destruct cmd as [|f|dd|c|sg|hh f|hh|o sz|u]; try exact (False_ind _ HA).
    specialize (CF c loc w _ w' W H). cbn [exports] in *. unfold sizes_chosen, profile_enabled in *. unfold info_max, tci_size, alg_max, spki_max, bits_max, octets_max in Q.
    assert (LP : len (ca_ueid a) <= match prof cf with P256Sha256 => 32 | _ => 48 end) by (rewrite <- CF; destruct c; exact LL).
    clear - Q R Hsizes HE HLt HAB LP HM.
    destruct (prof cf), (feat_p256 cf), (feat_p384 cf), (feat_mldsa cf); cbn [orb andb] in *; try discriminate HE; try (destruct Hsizes; discriminate);
      destruct (sup_recursive _); change (N.leb (N.of_nat 48) 32) with false in Q; change (N.leb (N.of_nat 32) 32) with true in Q; cbv iota in Q; lia.
  Qed.
End Commands.
