(** X509Made.v -- what [create_cert] writes, for every well-formed state and every
    environment: the certificate or signed request as a tree of DER values. *)
From Verif Require Import Base Errors Types Env StateOps Wire Instance Commands X509 X509Cert Lib Der DerProofs X509Run X509Spec
  X509Bytes X509Enc X509Tbs X509Cms Spec Exec Forest Codec Walk Measure X509Out X509Proper X509Gen X509Read X509ReadOk.
Open Scope N_scope.

(** ** The contents of an output *)

(** The subject of a certificate: a fixed common name and the first 64 characters of
    a digest in hexadecimal. *)
Definition subject_serial (d : digest) : bytes := firstn 64 (hex_of (digest_bytes d)).
Definition subject_cn (exported : bool) : bytes := if exported then str_dpe_exported else str_dpe_leaf.

(** The extensions of an output about context [i] in state [s]. *)
Definition output_exts (x509 : bool) (k : cert_kind) (a : cert_args) (x : draft) : ext_data :=
  {| xd_critical := ca_critical a; xd_ca := kind_exported k; xd_ueid := ca_ueid a;
     xd_ski := dr_ski x; xd_aki := dr_aki x; xd_san := dr_san x |}.
Definition output_recursive (k : cert_kind) (s : state) : bool :=
  if kind_exported k then false else sup_recursive (st_support s).

Definition output_tbs (cf : config) (k : cert_kind) (a : cert_args) (s : state) (cts : list context)
           (idn : der) (x : draft) : der :=
  tbs_certificate (prof cf) (be_val (firstn 20 (ds_bytes (nm_serial (dr_subject x))))) idn
    (name_der (dr_subject x)) (dr_validity x) (subject_public_key_info (dr_pubkey x))
    (extensions true (output_exts true k a x) (chain_infos (prof cf) (output_recursive k s) cts)).
Definition output_info (cf : config) (k : cert_kind) (a : cert_args) (s : state) (cts : list context)
           (x : draft) : der :=
  certification_request_info (name_der (dr_subject x)) (subject_public_key_info (dr_pubkey x))
    (extensions false (output_exts false k a x) (chain_infos (prof cf) (output_recursive k s) cts)).

Section Made.
  Variable cf : config.
  Hypothesis Hcf : config_ok cf.
  Context {C P : Type}.
  Variable co : crypto_ops C.
  Variable po : platform_ops P.
  Notation world := (world C P).
  Notation M := (M C P).
  Notation draft_of := (draft_of cf C P co po).
  Notation drafted := (drafted cf C P co po).

  Lemma made_inv k a off w r w' : create_cert cf C P co po k a off w = (Ok r, w') ->
    exists x wd n wr, drafted k a x w wd /\ w_st wd = w_st w /\ w_out wd = w_out w /\
      draft_write cf C co k a (w_st w) x (cw_new (skipn off (w_out w)) (w_c wd)) = (Ok n, wr) /\
      w' = mkWorld (w_st w) (cw_c wr) (w_p wd) (firstn off (w_out w) ++ cw_buf wr) /\
      cr_size r = n /\ cr_pubkey r = dr_pubkey x /\
      (if kind_exported k then dr_exported x = Some (cr_exported r) else cr_exported r = repeat 0 max_exported_cdi_size).
  Proof.
    rewrite create_cert_draft. intros H.
    apply bind_inv in H as [(x & wd & E0 & H)|[(e & _ & X)|(e & _ & X)]]; [|discriminate..].
    apply draft_inv in E0 as (HD & HS & HO). rewrite bind_get_st in H.
    apply bind_inv in H as [(n & w1 & E1 & H)|[(e & _ & X)|(e & _ & X)]]; [|discriminate..].
    unfold run_writer in E1. rewrite HS, HO in E1.
    destruct (draft_write _ _ _ _ _ _ _) as [r1 wr] eqn:EW. 
    pose proof (f_equal fst E1) as F1. pose proof (f_equal snd E1) as F2. cbn [fst snd] in F1, F2. subst r1.
    exists x, wd, n, wr. split; [exact HD|]. split; [exact HS|]. split; [exact HO|]. split; [exact EW|].
    unfold draft_result in H. apply bind_lift_inv in H as [(m & E2 & H)|[(e & _ & X & _)|(e & _ & X & _)]]; [|discriminate..].
    assert (m = n). { unfold to_u32 in E2. destruct (N.ltb n (2 ^ 32)); [apply ok_inj in E2; auto|discriminate]. } subst m.
    destruct (kind_exported k).
    - apply bind_lift_inv in H as [(h & E3 & H)|[(e & _ & X & _)|(e & _ & X & _)]]; [|discriminate..].
      apply ret_inv in H as [H ->]. apply ok_inj in H. subst r. cbn [cr_size cr_pubkey cr_exported]. subst w1.
      repeat (split; [reflexivity|]). unfold ok_or in E3. destruct (dr_exported x); [|discriminate]. apply ok_inj in E3. congruence.
    - rewrite bind_ret in H. apply ret_inv in H as [H ->]. pose proof (ok_inj _ _ H) as H1. rewrite H1. cbn [cr_size cr_pubkey cr_exported]. subst w1.
      repeat (split; [reflexivity|]). reflexivity.
  Qed.

  Lemma splice off n (out t : bytes) : n <= len (skipn off out) ->  n = len t -> 0 < n ->
    (off + N.to_nat n <= length out)%nat /\
    firstn off out ++ t ++ skipn (N.to_nat n) (skipn off out) = firstn off out ++ t ++ skipn (off + N.to_nat n) out.
  Proof.
    intros H1 H2 H3. unfold len in *. rewrite skipn_length in H1. split; [lia|]. rewrite Codec.skip_skip. reflexivity.
  Qed.
  Lemma enc_seq_pos l : 0 < len (enc (SEQUENCE l)).
  Proof. unfold len. change (length (enc (SEQUENCE l))) with (S (length (tl (enc (SEQUENCE l))))). lia. Qed.

  (** The signed parts around extensions of any form. *)
  Definition tbs_around (x : draft) (idn y : der) : der :=
    SEQUENCE (tbs_items cf (be_val (firstn 20 (ds_bytes (nm_serial (dr_subject x))))) idn
      (name_der (dr_subject x)) (dr_validity x) (subject_public_key_info (dr_pubkey x)) y).
  Definition info_around (x : draft) (y : der) : der :=
    SEQUENCE (info_items (name_der (dr_subject x)) (subject_public_key_info (dr_pubkey x)) y).

  Theorem certificate_made_around k a off w r w' :
    create_cert cf C P co po k a off w = (Ok r, w') -> kind_csr k = false -> key_of (prof cf) (cr_pubkey r) ->
    exists x wd, drafted k a x w wd /\ cr_pubkey r = dr_pubkey x /\
      (forall y idn, rexts cf (ca_critical a) (draft_md k a (w_st w) x) true = Ok (E y) -> enc idn = dr_issuer x ->
       exists g, let tbs := tbs_around x idn y in
         let n := N.to_nat (cr_size r) in
         co_sign_with_alias co (SDBuffer (enc tbs)) (w_c wd) = (inl g, w_c w') /\
         cr_size r = len (enc (signed (prof cf) tbs g)) /\ (off + n <= length (w_out w))%nat /\
         w_out w' = firstn off (w_out w) ++ enc (signed (prof cf) tbs g) ++ skipn (off + n) (w_out w) /\
         wide tbs /\ wide (signed (prof cf) tbs g)).
  Proof.
    intros H HC HK. apply made_inv in H as (x & wd & n & wr & HD & HS & HO & EW & -> & En & Epk & _).
    exists x, wd. split; [exact HD|]. split; [exact Epk|]. intros y idn HX HI.
    pose proof (drafted_bytes _ _ _ _ _ _ _ _ _ _ HD) as B. destruct (db_subject _ _ B) as (dg & Esub).
    unfold draft_write in EW. rewrite HC in EW. rewrite Epk in HK.
    assert (HB : all_bytes (firstn 20 (ds_bytes (nm_serial (dr_subject x))))).
    { rewrite Esub. cbn [nm_serial ds_bytes]. apply Forall_firstn, Forall_firstn.
      eapply Forall_impl; [|apply hex_bytes, digest_bytes_bytes]. intros b Hb. unfold is_byte. cbv beta in Hb. lia. }
    assert (HN : firstn 20 (ds_bytes (nm_serial (dr_subject x))) <> []).
    { rewrite Esub. cbn [nm_serial ds_bytes]. intros Z. apply (f_equal (@length N)) in Z.
      rewrite firstn_length, subject_length in Z. discriminate. }
    apply (certificate_written cf C (draft_cb C co k a x) (ca_critical a) (draft_md k a (w_st w) x) _ _ _ _ _ _ idn HK HB HN HX HI) in EW.
    destruct EW as (g & Hcb & E1 & E2 & E3 & E4 & E5). exists g. cbv zeta. cbn [w_c w_out].
    change (draft_cb C co k a x (SDBuffer ?t) false (w_c wd)) with (co_sign_with_alias co (SDBuffer t) (w_c wd)) in Hcb.
    split; [exact Hcb|]. rewrite En. split; [exact E1|].
    assert (0 < n) as Hpos by (rewrite E1; apply enc_seq_pos).
    destruct (splice off n (w_out w) _ E2 E1 Hpos) as [S1 S2]. split; [exact S1|]. split; [|split; assumption].
    rewrite E3. exact S2.
  Qed.
  Theorem certificate_made k a off w r w' :
    create_cert cf C P co po k a off w = (Ok r, w') -> kind_csr k = false ->
    wf cf (w_st w) -> key_of (prof cf) (cr_pubkey r) ->
    exists x wd, drafted k a x w wd /\ cr_pubkey r = dr_pubkey x /\
      (forall cts idn, lineage (w_st w) (dr_idx x) cts -> even_svns cts -> enc idn = dr_issuer x ->
       exists g, let tbs := output_tbs cf k a (w_st w) cts idn x in
         let n := N.to_nat (cr_size r) in
         co_sign_with_alias co (SDBuffer (enc tbs)) (w_c wd) = (inl g, w_c w') /\
         cr_size r = len (enc (signed (prof cf) tbs g)) /\ (off + n <= length (w_out w))%nat /\
         w_out w' = firstn off (w_out w) ++ enc (signed (prof cf) tbs g) ++ skipn (off + n) (w_out w) /\
         wide tbs /\ wide (signed (prof cf) tbs g)).
  Proof.
    intros H HC W HK. destruct (certificate_made_around _ _ _ _ _ _ H HC HK) as (x & wd & HD & Epk & T).
    exists x, wd. split; [exact HD|]. split; [exact Epk|]. intros cts idn HL HE HI.
    exact (T _ idn (rexts_even cf Hcf (w_st w) W (dr_idx x) cts HL (draft_md k a (w_st w) x) eq_refl eq_refl (ca_critical a) HE) HI).
  Qed.

  Theorem request_made_around k a off w r w' :
    create_cert cf C P co po k a off w = (Ok r, w') -> kind_csr k = true -> key_of (prof cf) (cr_pubkey r) ->
    exists x wd, drafted k a x w wd /\ cr_pubkey r = dr_pubkey x /\
      (forall y sidt, rattrs cf (ca_critical a) (draft_md k a (w_st w) x) = Ok (E y) -> enc sidt = enc (sid_der (dr_sid x)) ->
       exists g1 c1 g2, let info := info_around x y in
         let v := syntax_version (dr_sid x) in
         let csr := signed (prof cf) info g1 in
         let m := content_info (signed_data (prof cf) v csr (signer_info (prof cf) v sidt g2)) in
         let n := N.to_nat (cr_size r) in
         sign_with_derived C co (dr_digest x) (ca_cdi_label a) (ca_key_label a) (ca_context a) (SDBuffer (enc info)) (w_c wd)
           = (inl g1, c1) /\
         co_sign_with_alias co (SDBuffer (enc csr)) c1 = (inl g2, w_c w') /\
         cr_size r = len (enc m) /\ (off + n <= length (w_out w))%nat /\
         w_out w' = firstn off (w_out w) ++ enc m ++ skipn (off + n) (w_out w) /\
         wide info /\ cr_size r < 65540).
  Proof.
    intros H HC HK. apply made_inv in H as (x & wd & n & wr & HD & HS & HO & EW & -> & En & Epk & _).
    exists x, wd. split; [exact HD|]. split; [exact Epk|]. intros y sidt HX HI.
    unfold draft_write in EW. rewrite HC in EW. rewrite Epk in HK.
    apply (cms_written cf C (draft_cb C co k a x) (ca_critical a) (draft_md k a (w_st w) x) _ _ _ _ sidt HK HX HI) in EW.
    destruct EW as (g1 & c1 & g2 & Hcb1 & Hcb2 & E1 & E2 & E3 & E4 & E5). exists g1, c1, g2. cbv zeta. cbn [w_c w_out].
    destruct k; try discriminate HC.
    split; [exact Hcb1|]. split; [exact Hcb2|]. rewrite En.
    assert (EV : cms_version (dr_sid x) = syntax_version (dr_sid x)) by (destruct (dr_sid x); reflexivity).
    rewrite EV in *.
    split; [exact E1|].
    assert (0 < n) as Hpos by (rewrite E1; apply enc_seq_pos).
    destruct (splice off n (w_out w) _ E2 E1 Hpos) as [S1 S2]. split; [exact S1|]. split; [|split; assumption].
    rewrite E3. exact S2.
  Qed.
  Theorem request_made k a off w r w' :
    create_cert cf C P co po k a off w = (Ok r, w') -> kind_csr k = true ->
    wf cf (w_st w) -> key_of (prof cf) (cr_pubkey r) ->
    exists x wd, drafted k a x w wd /\ cr_pubkey r = dr_pubkey x /\
      (forall cts sidt, lineage (w_st w) (dr_idx x) cts -> even_svns cts -> enc sidt = enc (sid_der (dr_sid x)) ->
       exists g1 c1 g2, let info := output_info cf k a (w_st w) cts x in
         let v := syntax_version (dr_sid x) in
         let csr := signed (prof cf) info g1 in
         let m := content_info (signed_data (prof cf) v csr (signer_info (prof cf) v sidt g2)) in
         let n := N.to_nat (cr_size r) in
         sign_with_derived C co (dr_digest x) (ca_cdi_label a) (ca_key_label a) (ca_context a) (SDBuffer (enc info)) (w_c wd)
           = (inl g1, c1) /\
         co_sign_with_alias co (SDBuffer (enc csr)) c1 = (inl g2, w_c w') /\
         cr_size r = len (enc m) /\ (off + n <= length (w_out w))%nat /\
         w_out w' = firstn off (w_out w) ++ enc m ++ skipn (off + n) (w_out w) /\
         wide info /\ cr_size r < 65540).
  Proof.
    intros H HC W HK. destruct (request_made_around _ _ _ _ _ _ H HC HK) as (x & wd & HD & Epk & T).
    exists x, wd. split; [exact HD|]. split; [exact Epk|]. intros cts sidt HL HE HI.
    exact (T _ sidt (rattrs_even cf Hcf (w_st w) W (dr_idx x) cts HL (draft_md k a (w_st w) x) eq_refl eq_refl (ca_critical a) HE) HI).
  Qed.

  (** *** Reading the outputs back *)

  Lemma chain_words s i cts : wf cf s -> lineage s i cts -> Forall entry_words cts.
  Proof.
    intros W L. apply Forall_forall. intros c Hc. pose proof (lineage_slots cf s i cts W L c Hc) as B.
    split; [rewrite (so_tci_locality _ _ _ B); apply (so_locality _ _ _ B)|]. split; [apply (so_type _ _ _ B)|].
    split; [apply (so_current _ _ _ B)|apply (so_cumulative _ _ _ B)].
  Qed.
  Lemma chain_infos_proper p r cts : Forall entry_words cts -> Forall proper (chain_infos p r cts).
  Proof.
    intros H. unfold chain_infos. apply Forall_map, Forall_rev. eapply Forall_impl; [|exact H].
    intros c (_ & _ & H1 & H2). apply proper_tcb_info; assumption.
  Qed.
  Lemma ascii_bytes l : Forall (fun b => 48 <= b < 128) l -> all_bytes l.
  Proof. intros H. eapply Forall_impl; [|exact H]. intros b Hb. unfold is_byte. cbv beta in Hb. lia. Qed.
  Lemma draft_name_proper k x : draft_bytes k x -> proper (name_der (dr_subject x)).
  Proof.
    intros B. destruct (db_subject _ _ B) as (dg & ->). unfold name_der. cbn [nm_cn nm_serial string_der].
    apply proper_subject_name.
    - destruct (kind_exported k); repeat (constructor; [exact eq_refl|]); constructor.
    - apply Forall_firstn, ascii_bytes, hex_bytes, digest_bytes_bytes.
  Qed.
  Lemma draft_exts_proper x509 k a s cts x : draft_bytes k x -> all_bytes (ca_ueid a) -> Forall entry_words cts ->
    proper (extensions x509 (output_exts x509 k a x) (chain_infos (prof cf) (output_recursive k s) cts)).
  Proof.
    intros B HU HW. apply proper_extensions; [|apply chain_infos_proper, HW].
    split; [exact HU|]. split; [apply (db_ski _ _ B)|]. split; [apply (db_aki _ _ B)|].
    pose proof (db_san _ _ B) as HN. cbn [output_exts xd_san]. destruct (dr_san x); [|exact I]. split; apply HN.
  Qed.
  Lemma output_tbs_proper k a s cts idn x : draft_bytes k x -> all_bytes (ca_ueid a) -> Forall entry_words cts -> proper idn ->
    proper (output_tbs cf k a s cts idn x).
  Proof.
    intros B HU HW HI. apply proper_tbs; [exact HI|apply (draft_name_proper k), B|apply (db_validity _ _ B)|apply proper_spki|].
    apply draft_exts_proper; assumption.
  Qed.
  Lemma output_info_proper k a s cts x : draft_bytes k x -> all_bytes (ca_ueid a) -> Forall entry_words cts ->
    proper (output_info cf k a s cts x).
  Proof.
    intros B HU HW. apply proper_cri; [apply (draft_name_proper k), B|apply proper_spki|]. apply draft_exts_proper; assumption.
  Qed.
  Lemma small_below t n : len (enc t) < n -> n <= len_max -> small t.
  Proof. unfold small, len. lia. Qed.
  Lemma wide_small tag l : wide (Cons tag l) -> small (Cons tag l).
  Proof.
    intros H. apply (small_below _ 65540).
    - rewrite <- E_enc.
      + apply (len_E_wide tag). apply (wide_len tag). exact H.
      + apply N.lt_trans with 65540; [|lia]. apply (len_E_wide tag). apply (wide_len tag). exact H.
    - apply N.leb_le. vm_compute. reflexivity.
  Qed.
End Made.
