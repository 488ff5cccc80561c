(** ViewerProofs.v -- the certificate viewer shows what the DPE wrote. *)
From Verif Require Import Base Types Env Lib Der DerProofs X509Spec X509Bytes Spec Codec Measure X509Out X509Proper X509Read X509ReadOk Viewer.
Open Scope N_scope.

(** ** Fields *)

Lemma read_u64_uint v : v < 2 ^ 64 -> read_u64 (der_uint v) = Some v.
Proof.
  intros H. pose proof (der_uint_correct v) as (A & B & D).
  destruct (be_min_shortest v) as (A1 & B1 & D1).
  assert (HB : be_val (der_uint v) = v).
  { unfold der_uint. destruct (be_min v) as [|b l] eqn:E; [rewrite <- B1; reflexivity|].
    destruct (N.ltb b 128); [exact B1|]. rewrite be_val_cons, B1. lia. }
  unfold read_u64. destruct (der_uint v) as [|x r] eqn:E; [destruct D|].
  assert (HX : x < 128).
  { unfold der_uint in E. destruct (be_min v) as [|b l]; [injection E as <- _; lia|].
    destruct (N.ltb_spec b 128); injection E as <- _; lia. }
  destruct (N.leb_spec 128 x) as [X|_]; [lia|].
  replace (match r with y :: _ => N.eqb x 0 && N.ltb y 128 | [] => false end) with false.
  - rewrite HB. apply N.ltb_lt in H. rewrite H. reflexivity.
  - destruct r as [|y r]; [reflexivity|]. cbn [shortest_int] in D. destruct D as [D _].
    destruct (N.eqb_spec x 0); [|reflexivity]. destruct (N.ltb_spec y 128); [|reflexivity]. exfalso. apply D. auto.
Qed.

Section View.
  Variable utf8 : bytes -> bool.
  Variable time : N -> bytes -> bool.
  Variable pem : bytes -> option bytes.

  Lemma view_fwid_flat p d : view_fwid (flat (fwid p d)) = Some {| vf_alg := oid_content (digest_oid p); vf_digest := d |}.
  Proof.
    unfold view_fwid, fwid, SEQUENCE. rewrite members_flat. cbn [obind map]. unfold OID, OCTETS. rewrite !contents_flat. cbn [obind].
    replace (oid_ok (oid_content (digest_oid p))) with true by (destruct p; reflexivity). reflexivity.
  Qed.
  Lemma take_here {A} tag t f (a : A) l : match t with Prim g _ | Cons g _ => g = tag | _ => False end -> f t = Some a ->
    take tag f (t :: l) = Some (Some a, l).
  Proof. intros HT HF. unfold take. destruct t; try destruct HT as []; rewrite N.eqb_refl, HF; reflexivity. Qed.
  Lemma take_not {A} tag t (f : der -> option A) l : match t with Prim g _ | Cons g _ => N.eqb g tag = false | _ => False end ->
    take tag f (t :: l) = Some (None, t :: l).
  Proof. intros HT. unfold take. destruct t; [rewrite HT; reflexivity|rewrite HT; reflexivity|destruct HT|destruct HT]. Qed.
  Lemma take_nil {A} tag (f : der -> option A) : take tag f [] = Some (None, []).
  Proof. reflexivity. Qed.

  (** What the viewer should show for a context. *)
  Definition vtcb_of (p : profile) (recursive : bool) (c : context) : vtcb :=
    let hash d := {| vf_alg := oid_content (digest_oid p); vf_digest := d |} in
    {| vt_vendor := None; vt_model := None; vt_version := None; vt_svn := Some (tci_svn (c_tci c)); vt_layer := None;
       vt_index := None; vt_fwids := [hash (tci_current (c_tci c))]; vt_flags := None;
       vt_vendor_info := Some (be_bytes 4 (tci_locality (c_tci c))); vt_type := Some (le_bytes 4 (tci_type (c_tci c)));
       vt_mask := None;
       vt_registers := if recursive then [{| vr_name := None; vr_num := Some 0; vr_digests := [hash (tci_cumulative (c_tci c))] |}] else [] |}.

  Lemma view_fwids_flat p tag d : view_fwids (flat (Cons tag [fwid p d])) = Some [{| vf_alg := oid_content (digest_oid p); vf_digest := d |}].
  Proof. unfold view_fwids. cbn [flat map the_kids obind]. rewrite view_fwid_flat. reflexivity. Qed.
  Lemma view_register_flat p d :
    view_register (flat (SEQUENCE [CTX_PRIM 1 (der_uint 0); CTX 2 [fwid p d]]))
    = Some {| vr_name := None; vr_num := Some 0; vr_digests := [{| vf_alg := oid_content (digest_oid p); vf_digest := d |}] |}.
  Proof.
    unfold view_register. unfold SEQUENCE at 1. rewrite members_flat. cbn [obind map]. unfold CTX_PRIM. change (128 + 1) with 0x81.
    change (flat (Prim 0x81 (der_uint 0))) with (Prim 0x81 [0]).
    rewrite take_not by reflexivity. cbn [obind]. rewrite (take_here 0x81 _ _ 0) by reflexivity. cbn [obind].
    unfold CTX. change (160 + 2) with 0xA2. rewrite (take_here 0xA2 (flat (Cons 0xA2 [fwid p d])) _ _ _ eq_refl (view_fwids_flat p 0xA2 d)). reflexivity.
  Qed.
  Lemma view_tcb_flat p r c : u32 (tci_svn (c_tci c)) ->
    view_tcb utf8 false (flat (tcb_info p r (c_tci c))) = Some (vtcb_of p r c).
  Proof.
    intros HS. assert (HV : read_u64 (der_uint (tci_svn (c_tci c))) = Some (tci_svn (c_tci c))).
    { apply read_u64_uint. unfold u32 in HS. eapply N.lt_trans; [exact HS|]. reflexivity. }
    unfold view_tcb, tcb_info, tcb_info_with. unfold SEQUENCE at 1. rewrite members_flat. cbn [obind]. rewrite map_app. cbn [map app].
    unfold CTX_PRIM at 1. change (128 + 3) with 0x83. change (flat (Prim 0x83 ?x)) with (Prim 0x83 x).
    do 3 (rewrite take_not by reflexivity; cbn [obind]).
    rewrite (take_here 0x83 _ the_u64 (tci_svn (c_tci c))) by (reflexivity || exact HV). cbn [obind].
    unfold CTX at 1. change (160 + 6) with 0xA6.
    rewrite (take_not 0x84) by reflexivity. cbn [obind]. rewrite (take_not 0x85) by reflexivity. cbn [obind].
    rewrite (take_here 0xA6 (flat (Cons 0xA6 [fwid p (tci_current (c_tci c))])) _ _ _ eq_refl (view_fwids_flat p 0xA6 _)). cbn [obind].
    unfold CTX_PRIM at 1 2. change (128 + 8) with 0x88. change (128 + 9) with 0x89.
    change (flat (Prim 0x88 ?x)) with (Prim 0x88 x). change (flat (Prim 0x89 ?x)) with (Prim 0x89 x).
    rewrite take_not by reflexivity. cbn [obind].
    rewrite (take_here 0x88 _ the_octets (be_bytes 4 (tci_locality (c_tci c)))) by reflexivity. cbn [obind].
    rewrite (take_here 0x89 _ the_octets (le_bytes 4 (tci_type (c_tci c)))) by reflexivity. cbn [obind].
    destruct r; [|reflexivity]. cbn [map]. unfold CTX at 1. change (160 + 11) with 0xAB.
    rewrite take_not by reflexivity. cbn [obind].
    rewrite (take_here 0xAB _ view_registers [{| vr_name := None; vr_num := Some 0;
       vr_digests := [{| vf_alg := oid_content (digest_oid p); vf_digest := tci_cumulative (c_tci c) |}] |}]); [reflexivity|reflexivity|].
    transitivity (all_some [view_register (flat (SEQUENCE [CTX_PRIM 1 (der_uint 0); CTX 2 [fwid p (tci_cumulative (c_tci c))]]))]); [reflexivity|].
    rewrite view_register_flat. reflexivity.
  Qed.

  Definition svn_words (c : context) : Prop := u32 (tci_svn (c_tci c)).
  Lemma view_chain p r cts : Forall svn_words cts ->
    all_some (map (view_tcb utf8 false) (map flat (chain_infos p r cts))) = Some (map (vtcb_of p r) (rev cts)).
  Proof.
    intros H. unfold chain_infos. apply Forall_rev in H. induction H as [|c l H1 HF IH]; [reflexivity|].
    cbn [map all_some]. rewrite view_tcb_flat by assumption. rewrite IH. reflexivity.
  Qed.

  (** ** Extensions *)

  Lemma ext_of_flat oid c v : ext_of (flat (extension oid c v)) = Some (oid_content oid, c, enc v).
  Proof.
    unfold ext_of, extension. unfold SEQUENCE at 1. rewrite members_flat. cbn [obind].
    destruct c; cbn [app map]; unfold OID, TRUE, OCTETS_OF; rewrite ?contents_flat; cbn [obind flat contents];
      change (N.eqb 4 4) with true; cbv iota; cbn [obind map concat app N.eqb negb]; rewrite app_nil_r; reflexivity.
  Qed.

  (** The extensions of an output with what the viewer shows of them. *)
  Definition table (x509 : bool) (d : ext_data) (n : nat) : list vext :=
    let row oid c x := {| ve_oid := oid_content oid; ve_critical := c; ve_details := x |} in
    [ row id_dice_MultiTcbInfo (xd_critical d) (DContains n);
      row id_dice_Ueid (xd_critical d) (DUeid (xd_ueid d));
      row id_ce_basicConstraints true (DConstraints (xd_ca d) None);
      row id_ce_keyUsage true (DUsage true (xd_ca d));
      row id_ce_extKeyUsage true (DPurposes [oid_content (if xd_ca d then id_dice_kp_eca else id_dice_kp_attestLoc)]) ]
    ++ (if xd_ca d && x509 then [row id_ce_subjectKeyIdentifier false (DSki (xd_ski d))] else [])
    ++ (if x509 then [row id_ce_authorityKeyIdentifier false (DAki (Some (xd_aki d)))] else [])
    ++ match xd_san d with
       | Some o => [row id_ce_subjectAltName false
           (DLength (length (enc (SEQUENCE [CTX 0 [Prim 0x06 (on_oid o); CTX 0 [UTF8 (on_value o)]]]))))]
       | None => [] end.

  Lemma step_multi p r cts tcbs u ex c : Forall svn_words cts -> proper (SEQUENCE (chain_infos p r cts)) -> small (SEQUENCE (chain_infos p r cts)) ->
    ext_step utf8 (tcbs, u, ex) (oid_content id_dice_MultiTcbInfo, c, enc (SEQUENCE (chain_infos p r cts)))
    = (tcbs ++ map (vtcb_of p r) (rev cts), u,
       ex ++ [{| ve_oid := oid_content id_dice_MultiTcbInfo; ve_critical := c; ve_details := DContains (length cts) |}]).
  Proof.
    intros HW HP HS. unfold ext_step.
    change (is_arcs oid_tcb_info (oid_content id_dice_MultiTcbInfo)) with false.
    change (is_arcs oid_multi_tcb_info (oid_content id_dice_MultiTcbInfo)) with true. cbv iota.
    assert (E : view_multi utf8 (enc (SEQUENCE (chain_infos p r cts))) = Some (map (vtcb_of p r) (rev cts))).
    { unfold view_multi, view_seq at 1. rewrite (decode_enc _ HP HS). cbn [obind]. unfold SEQUENCE at 1. rewrite members_flat. cbn [obind].
      rewrite view_chain by exact HW. reflexivity. }
    rewrite E. rewrite map_length, rev_length. reflexivity.
  Qed.
  Lemma step_ueid tcbs u ex c v : proper (SEQUENCE [OCTETS v]) -> small (SEQUENCE [OCTETS v]) ->
    ext_step utf8 (tcbs, u, ex) (oid_content id_dice_Ueid, c, enc (SEQUENCE [OCTETS v]))
    = (tcbs, Some v, ex ++ [{| ve_oid := oid_content id_dice_Ueid; ve_critical := c; ve_details := DUeid v |}]).
  Proof.
    intros HP HS. unfold ext_step.
    change (is_arcs oid_tcb_info (oid_content id_dice_Ueid)) with false.
    change (is_arcs oid_multi_tcb_info (oid_content id_dice_Ueid)) with false.
    change (is_arcs oid_ueid (oid_content id_dice_Ueid)) with true. cbv iota.
    unfold view_ueid. rewrite (decode_enc _ HP HS). cbn [obind]. unfold SEQUENCE at 1. rewrite members_flat. cbn [obind map].
    unfold OCTETS. rewrite contents_flat. rewrite app_nil_r. reflexivity.
  Qed.
  Lemma step_other oid tcbs u ex c v d :
    is_arcs oid_tcb_info (oid_content oid) = false -> is_arcs oid_multi_tcb_info (oid_content oid) = false ->
    is_arcs oid_ueid (oid_content oid) = false -> view_other (oid_content oid) (enc v) = d ->
    ext_step utf8 (tcbs, u, ex) (oid_content oid, c, enc v)
    = (tcbs, u, ex ++ [{| ve_oid := oid_content oid; ve_critical := c; ve_details := d |}]).
  Proof. intros H1 H2 H3 H4. unfold ext_step. rewrite H1, H2, H3, H4, app_nil_r. reflexivity. Qed.

  Lemma view_exts_flat x509 p r d cts : Forall svn_words cts ->
    proper (extensions x509 d (chain_infos p r cts)) -> small (extensions x509 d (chain_infos p r cts)) ->
    exists l, exts_of (flat (extensions x509 d (chain_infos p r cts))) = Some l /\
      view_exts utf8 l = (map (vtcb_of p r) (rev cts), Some (xd_ueid d), table x509 d (length cts)).
  Proof.
    intros HW HP HS. unfold extensions in *.
    assert (HE : forall oid c v, In (extension oid c v) (ext_multi_tcb_info (xd_critical d) (chain_infos p r cts) :: other_extensions x509 d) ->
               proper v /\ small v).
    { intros oid c v Hin. split.
      - unfold SEQUENCE in HP. apply proper_cons in HP as [_ HP]. rewrite Forall_forall in HP. eapply proper_ext_value, HP, Hin.
      - eapply small_ext_value, small_kid_cons; [exact HS|exact Hin]. }
    assert (HM : exists l, all_some (map ext_of (map flat (ext_multi_tcb_info (xd_critical d) (chain_infos p r cts) :: other_extensions x509 d))) = Some l /\
      l = ((oid_content id_dice_MultiTcbInfo, xd_critical d, enc (SEQUENCE (chain_infos p r cts)))
       :: [(oid_content id_dice_Ueid, xd_critical d, enc (SEQUENCE [OCTETS (xd_ueid d)]));
           (oid_content id_ce_basicConstraints, true, enc (SEQUENCE (if xd_ca d then [TRUE] else [])));
           (oid_content id_ce_keyUsage, true, enc (Prim 0x03 (if xd_ca d then [2; 0x84] else [7; 0x80])));
           (oid_content id_ce_extKeyUsage, true, enc (SEQUENCE [OID (if xd_ca d then id_dice_kp_eca else id_dice_kp_attestLoc)]))]
       ++ (if xd_ca d && x509 then [(oid_content id_ce_subjectKeyIdentifier, false, enc (OCTETS (xd_ski d)))] else [])
       ++ (if x509 then [(oid_content id_ce_authorityKeyIdentifier, false, enc (SEQUENCE [CTX_PRIM 0 (xd_aki d)]))] else [])
       ++ match xd_san d with Some o => [(oid_content id_ce_subjectAltName, false,
            enc (SEQUENCE [CTX 0 [Prim 0x06 (on_oid o); CTX 0 [UTF8 (on_value o)]]]))] | None => [] end)).
    { unfold other_extensions, opt_san, ext_multi_tcb_info, ext_ueid, ext_basic_constraints, ext_key_usage, ext_extended_key_usage,
        ext_subject_key_identifier, ext_authority_key_identifier, ext_subject_alt_name.
      eexists. split; [|reflexivity].
      destruct (xd_ca d), x509, (xd_san d) as [o|]; cbn [andb app map]; rewrite !ext_of_flat; reflexivity. }
    destruct HM as (l & EL & ->). eexists. split.
    { unfold exts_of. unfold SEQUENCE at 1. rewrite members_flat. cbn [obind]. exact EL. }
    clear EL. unfold view_exts. cbn [app fold_left].
    destruct (HE id_dice_MultiTcbInfo (xd_critical d) (SEQUENCE (chain_infos p r cts))) as [P1 S1]; [left; reflexivity|].
    destruct (HE id_dice_Ueid (xd_critical d) (SEQUENCE [OCTETS (xd_ueid d)])) as [P2 S2]; [right; left; reflexivity|].
    rewrite (step_multi p r cts) by assumption. rewrite step_ueid by assumption. cbn [app].
    rewrite (step_other id_ce_basicConstraints _ _ _ _ _ (DConstraints (xd_ca d) None)) by (try reflexivity; destruct (xd_ca d); reflexivity).
    rewrite (step_other id_ce_keyUsage _ _ _ _ _ (DUsage true (xd_ca d))) by (try reflexivity; destruct (xd_ca d); reflexivity).
    rewrite (step_other id_ce_extKeyUsage _ _ _ _ _ (DPurposes [oid_content (if xd_ca d then id_dice_kp_eca else id_dice_kp_attestLoc)]))
      by (try reflexivity; destruct (xd_ca d); reflexivity).
    unfold table. cbn [app]. rewrite !fold_left_app.
    assert (HSki : xd_ca d && x509 = true -> view_other (oid_content id_ce_subjectKeyIdentifier) (enc (OCTETS (xd_ski d))) = DSki (xd_ski d)).
    { intros EX. destruct (HE id_ce_subjectKeyIdentifier false (OCTETS (xd_ski d))) as [P3 S3].
      { right. unfold other_extensions. rewrite EX. apply in_or_app. right. left. reflexivity. }
      unfold view_other. do 3 change (is_arcs ?a (oid_content id_ce_subjectKeyIdentifier)) with false at 1.
      change (is_arcs [2; 5; 29; 14] (oid_content id_ce_subjectKeyIdentifier)) with true. cbv iota.
      unfold view_ski. rewrite (decode_enc _ P3 S3). cbn [obind]. unfold OCTETS. rewrite contents_flat. reflexivity. }
    assert (HAki : x509 = true -> view_other (oid_content id_ce_authorityKeyIdentifier) (enc (SEQUENCE [CTX_PRIM 0 (xd_aki d)])) = DAki (Some (xd_aki d))).
    { intros EX. destruct (HE id_ce_authorityKeyIdentifier false (SEQUENCE [CTX_PRIM 0 (xd_aki d)])) as [P3 S3].
      { right. unfold other_extensions. rewrite EX. apply in_or_app. right. apply in_or_app. right. left. reflexivity. }
      unfold view_other. do 4 change (is_arcs ?a (oid_content id_ce_authorityKeyIdentifier)) with false at 1.
      change (is_arcs [2; 5; 29; 35] (oid_content id_ce_authorityKeyIdentifier)) with true. cbv iota.
      unfold view_aki. rewrite (decode_enc _ P3 S3). cbn [obind]. unfold SEQUENCE. rewrite members_flat. reflexivity. }
    destruct (xd_ca d && x509) eqn:EX; cbn [fold_left].
    - rewrite (step_other id_ce_subjectKeyIdentifier _ _ _ _ _ _ eq_refl eq_refl eq_refl (HSki eq_refl)). cbn [app].
      destruct x509; cbn [fold_left]; [rewrite (step_other id_ce_authorityKeyIdentifier _ _ _ _ _ _ eq_refl eq_refl eq_refl (HAki eq_refl)); cbn [app]|];
        (destruct (xd_san d) as [o|]; cbn [fold_left]; [|reflexivity]);
        rewrite (step_other id_ce_subjectAltName _ _ _ _ _ _ eq_refl eq_refl eq_refl eq_refl); reflexivity.
    - destruct x509; cbn [fold_left]; [rewrite (step_other id_ce_authorityKeyIdentifier _ _ _ _ _ _ eq_refl eq_refl eq_refl (HAki eq_refl)); cbn [app]|];
        (destruct (xd_san d) as [o|]; cbn [fold_left]; [|reflexivity]);
        rewrite (step_other id_ce_subjectAltName _ _ _ _ _ _ eq_refl eq_refl eq_refl eq_refl); reflexivity.
  Qed.

  (** ** Certificates *)

  Lemma alg_of_alg oid : alg_of (flat (alg_id oid)) = Some (oid_content oid).
  Proof. unfold alg_of, alg_id, SEQUENCE. rewrite members_flat. cbn [obind map]. unfold OID. apply contents_flat. Qed.
  (** The algorithm of the key, and the profile by name. *)
  Definition key_alg (p : profile) : list N := match p with Mldsa87 => id_ml_dsa_87 | _ => id_ecPublicKey end.
  Definition profile_label (p : profile) : label :=
    match p with P256Sha256 => LP256 | P384Sha384 => LP384 | Mldsa87 => LMldsa87 end.
  Lemma key_alg_ok p k : key_of p k -> key_alg_of (flat (subject_public_key_info k)) = Some (oid_content (key_alg p)).
  Proof.
    intros H. unfold key_alg_of. destruct p, k; try destruct H.
    - reflexivity.
    - reflexivity.
    - unfold subject_public_key_info. unfold SEQUENCE at 1. rewrite members_flat. cbn [obind map]. rewrite alg_of_alg.
      cbn [obind]. unfold BITS. rewrite contents_flat. reflexivity.
  Qed.
  Lemma infer_ok p tcbs : infer_profile (oid_content (key_alg p)) (oid_content (sig_alg_oid p)) tcbs
    = match p with P256Sha256 => match tcbs with
                                 | t :: _ => match vt_fwids t with
                                   | f :: _ => if is_arcs id_sha384 (vf_alg f) then LP384 else LP256 | [] => LP256 end
                                 | [] => LP256 end
      | _ => profile_label p end.
  Proof.
    destruct p; [|reflexivity|reflexivity]. destruct tcbs as [|t l]; [reflexivity|]. unfold infer_profile.
    destruct (vt_fwids t) as [|f fs]; [reflexivity|].
    change [2; 16; 840; 1; 101; 3; 4; 2; 2] with id_sha384.
    change (is_arcs [1; 2; 840; 10045; 4; 3; 3] (oid_content (sig_alg_oid P256Sha256))) with false.
    change (is_arcs [1; 3; 132; 0; 34] (oid_content (key_alg P256Sha256))) with false. cbn [orb].
    destruct (is_arcs id_sha384 (vf_alg f)); reflexivity.
  Qed.
  Lemma infer_chain p r cts : infer_profile (oid_content (key_alg p)) (oid_content (sig_alg_oid p)) (map (vtcb_of p r) (rev cts)) = profile_label p.
  Proof. rewrite infer_ok. destruct p; [|reflexivity|reflexivity]. destruct (rev cts); reflexivity. Qed.

  Lemma name_ok_subject cn sn : name_ok (flat (subject_name cn sn)) = true.
  Proof. reflexivity. Qed.
  Lemma signed_parts_flat p l g : signed_parts (flat (signed p (SEQUENCE l) g)) = Some (map flat l, oid_content (sig_alg_oid p)).
  Proof.
    unfold signed_parts, signed. unfold SEQUENCE at 1. rewrite members_flat. cbn [obind map]. unfold SEQUENCE at 1. rewrite members_flat. cbn [obind].
    rewrite alg_of_alg. cbn [obind]. destruct g; reflexivity.
  Qed.

  Lemma serial_uint v : v <> 0 -> serial_bytes (der_uint v) = be_min v.
  Proof.
    intros H. unfold serial_bytes. destruct (be_min_shortest v) as (A & B & D).
    replace (be_val (der_uint v)) with v.
    - destruct (be_min v) as [|b l] eqn:E; [|reflexivity]. exfalso. apply H. rewrite <- B. reflexivity.
    - unfold der_uint. destruct (be_min v) as [|b l] eqn:E; [rewrite <- B; reflexivity|].
      destruct (N.ltb b 128); [symmetry; exact B|]. rewrite be_val_cons, B. lia.
  Qed.

  Theorem view_certificate_flat p serial issuer cn sn v k r d cts g :
    let tbs := tbs_certificate p serial issuer (subject_name cn sn) v (subject_public_key_info k)
                 (extensions true d (chain_infos p r cts)) in
    proper (signed p tbs g) -> small (signed p tbs g) -> Forall svn_words cts -> key_of p k ->
    name_ok (flat issuer) = true -> time 0x18 (cv_not_before v) = true -> time 0x18 (cv_not_after v) = true -> serial <> 0 ->
    view_certificate utf8 time (flat (signed p tbs g))
    = Some {| sh_is_csr := false; sh_subject := flat (subject_name cn sn); sh_issuer := Some (flat issuer);
              sh_serial := Some (be_min serial); sh_sig_alg := oid_content (sig_alg_oid p);
              sh_validity := Some (cv_not_before v, cv_not_after v); sh_key_alg := oid_content (key_alg p);
              sh_profile := profile_label p; sh_ueid := Some (xd_ueid d); sh_tcbs := map (vtcb_of p r) (rev cts);
              sh_exts := table true d (length cts) |}.
  Proof.
    intros tbs HP HS HW HK HI HT1 HT2 HN.
    destruct (certificate_exts_fit p serial issuer (subject_name cn sn) v (subject_public_key_info k) d (chain_infos p r cts) g HP HS) as [P1 S1].
    destruct (view_exts_flat true p r d cts HW P1 S1) as (l & EL & EV).
    unfold view_certificate, tbs, tbs_certificate. rewrite signed_parts_flat. cbn [obind map].
    change (version_of (flat (CTX 0 [INTEGER 2]) :: ?r)) with (Some r). cbn [obind].
    unfold INTEGER at 1. rewrite contents_flat. cbn [obind]. rewrite alg_of_alg. cbn [obind].
    rewrite HI, name_ok_subject. cbn [andb guard obind].
    unfold validity_of. unfold SEQUENCE at 1. rewrite members_flat. cbn [obind map]. unfold GENERALIZED_TIME, time_of. cbn [flat].
    change (N.eqb 24 23 || N.eqb 24 24) with true. cbn [andb]. rewrite HT1, HT2. cbn [obind].
    rewrite (key_alg_ok p k HK). cbn [obind]. unfold CTX. change (160 + 3) with 0xA3. rewrite read_one_flat. cbn [obind].
    rewrite EL. cbn [obind]. rewrite EV, infer_chain, (serial_uint _ HN). reflexivity.
  Qed.

  Theorem view_csr_flat p cn sn k r d cts g :
    let info := certification_request_info (subject_name cn sn) (subject_public_key_info k) (extensions false d (chain_infos p r cts)) in
    proper (signed p info g) -> small (signed p info g) -> Forall svn_words cts -> key_of p k ->
    view_certificate utf8 time (flat (signed p info g)) = None /\
    view_csr utf8 (flat (signed p info g))
    = Some {| sh_is_csr := true; sh_subject := flat (subject_name cn sn); sh_issuer := None;
              sh_serial := None; sh_sig_alg := oid_content (sig_alg_oid p);
              sh_validity := None; sh_key_alg := oid_content (key_alg p);
              sh_profile := profile_label p; sh_ueid := Some (xd_ueid d); sh_tcbs := map (vtcb_of p r) (rev cts);
              sh_exts := table false d (length cts) |}.
  Proof.
    intros info HP HS HW HK.
    destruct (request_exts_fit p cn sn k d (chain_infos p r cts) g HP HS) as [P1 S1].
    destruct (view_exts_flat false p r d cts HW P1 S1) as (l & EL & EV).
    split.
    - unfold view_certificate, info, certification_request_info. rewrite signed_parts_flat. cbn [obind map]. reflexivity.
    - unfold view_csr, info, certification_request_info. rewrite signed_parts_flat. cbn [obind map].
      change (flat (INTEGER 0)) with (Prim 2 [0]). cbn [contents N.eqb Pos.eqb obind]. change (read_u64 [0]) with (Some 0). cbn [obind].
      rewrite name_ok_subject. cbn [guard obind]. rewrite (key_alg_ok p k HK). cbn [obind]. unfold CTX. change (160 + 0) with 0xA0.
      rewrite members_flat. cbn [obind map]. unfold requested at 1. rewrite members_flat. cbn [obind map]. unfold OID, SET. rewrite contents_flat. cbn [obind].
      rewrite members_flat. cbn [obind map]. change (is_arcs id_extensionRequest (oid_content id_extensionRequest)) with true. cbv iota.
      rewrite EL. cbn [all_some obind concat]. rewrite app_nil_r, EV, infer_chain. reflexivity.
  Qed.

  (** ** Containers *)

  Lemma first_value_enc t rest : proper t -> small t -> first_value (enc t ++ rest) = Some (flat t).
  Proof.
    intros HP HS. unfold first_value. rewrite parse_enc; [reflexivity|assumption..|].
    pose proof (depth_le_length t HP). rewrite app_length. lia.
  Qed.
  Lemma decode_rest t rest : proper t -> small t -> rest <> [] -> decode (enc t ++ rest) = None.
  Proof.
    intros HP HS HR. unfold decode. rewrite parse_enc; [destruct rest; [congruence|reflexivity]|assumption..|].
    pose proof (depth_le_length t HP). rewrite app_length. lia.
  Qed.
  Lemma enc_head tag l rest : exists r, enc (Cons tag l) ++ rest = tag :: r.
  Proof. eexists. reflexivity. Qed.
  Lemma view_plain tag l rest : tag = 0x30 ->
    view utf8 time pem (enc (Cons tag l) ++ rest)
    = do t <- first_value (match cms_content (enc (Cons tag l) ++ rest) with Some c => c | None => enc (Cons tag l) ++ rest end);
      orelse (view_certificate utf8 time t) (view_csr utf8 t).
  Proof.
    intros ->. destruct (enc_head 0x30 l rest) as [r E]. unfold view, unwrap, strip_header. rewrite E.
    change (bytes_eqb (firstn 10 (0x30 :: r)) str_BEGIN) with false. cbv iota. cbn [obind].
    change (bytes_eqb (firstn 4 (0x30 :: r)) str_REPD) with false. rewrite andb_false_r. reflexivity.
  Qed.
  Lemma cms_not p l g rest : let t := signed p (SEQUENCE l) g in proper t -> small t -> cms_content (enc t ++ rest) = None.
  Proof.
    intros t HP HS. unfold cms_content. destruct rest as [|x rest].
    - rewrite app_nil_r, (decode_enc _ HP HS). cbn [obind]. unfold t, signed. unfold SEQUENCE at 1. rewrite members_flat. reflexivity.
    - rewrite decode_rest by (assumption || discriminate). reflexivity.
  Qed.
  Lemma view_signed p l g rest : let t := signed p (SEQUENCE l) g in proper t -> small t ->
    view utf8 time pem (enc t ++ rest) = orelse (view_certificate utf8 time (flat t)) (view_csr utf8 (flat t)).
  Proof.
    intros t HP HS. pose proof (cms_not p l g rest HP HS) as EC. fold t in EC.
    unfold t at 1, signed. unfold SEQUENCE at 1. rewrite view_plain by reflexivity.
    change (Cons 48 [SEQUENCE l; alg_id (sig_alg_oid p); signature_bits g]) with t. rewrite EC, first_value_enc by assumption. reflexivity.
  Qed.

  (** A signer identifier that the cms crate accepts. *)
  Definition sid_ok (t : der) : Prop :=
    match t with
    | Prim g _ => g = 0x80
    | Cons g [n; Prim h _] => g = 0x30 /\ h = 2 /\ name_ok n = true
    | _ => False
    end.
  Lemma signer_info_ok p v sid g : sid_ok (flat sid) -> signer_ok (flat (signer_info p v sid g)) = true.
  Proof.
    intros HO. unfold signer_ok, signer_info. unfold SEQUENCE at 1. rewrite members_flat. cbn [map].
    change (flat (INTEGER v)) with (Prim 2 (der_uint v)). rewrite !alg_of_alg.
    unfold sid_ok in HO. destruct (flat sid) as [tg c|tg ks|tg pre ks|b]; [|  |destruct HO|destruct HO].
    - rewrite HO. destruct g; reflexivity.
    - destruct ks as [|n [|[h c|? ?|? ? ?|?] [|? ?]]]; try contradiction HO. destruct HO as (-> & -> & HN). destruct g; exact HN.
  Qed.
  Theorem cms_content_enc p v csr sid g :
    let m := content_info (signed_data p v csr (signer_info p v sid g)) in
    proper m -> small m -> sid_ok (flat sid) -> cms_content (enc m) = Some (enc csr).
  Proof.
    intros m HP HS HO. unfold cms_content. rewrite (decode_enc _ HP HS). cbn [obind].
    unfold m, content_info. unfold SEQUENCE at 1. rewrite members_flat. cbn [obind map].
    change (flat (OID id_signedData)) with (Prim 6 (oid_content id_signedData)). cbv iota.
    unfold CTX at 1. change (160 + 0) with 0xA0. rewrite read_one_flat. cbn [obind]. unfold signed_data. unfold SEQUENCE at 1. rewrite members_flat. cbn [obind map].
    change (flat (INTEGER v)) with (Prim 2 (der_uint v)). cbv iota. unfold SET. rewrite !members_flat. cbn [obind map]. rewrite alg_of_alg. cbn [all_some obind].
    cbn [forallb]. rewrite signer_info_ok by exact HO. cbn [andb guard obind].
    change (flat (OID id_data)) with (Prim 6 (oid_content id_data)). cbv iota. unfold CTX. change (160 + 0) with 0xA0. rewrite read_one_flat. cbn [obind].
    unfold OCTETS_OF. cbn [flat map concat app]. rewrite app_nil_r. reflexivity.
  Qed.
  Theorem view_request p v l g1 sid g2 :
    let csr := signed p (SEQUENCE l) g1 in
    let m := content_info (signed_data p v csr (signer_info p v sid g2)) in
    proper m -> small m -> proper csr -> small csr -> sid_ok (flat sid) ->
    view utf8 time pem (enc m) = orelse (view_certificate utf8 time (flat csr)) (view_csr utf8 (flat csr)).
  Proof.
    intros csr m HP HS HP1 HS1 HO. pose proof (cms_content_enc p v csr sid g2 HP HS HO) as EC. fold m in EC.
    rewrite <- (app_nil_r (enc m)). unfold m at 1, content_info. unfold SEQUENCE at 1. rewrite view_plain by reflexivity.
    change (Cons 48 [OID id_signedData; CTX 0 [signed_data p v csr (signer_info p v sid g2)]]) with m. rewrite app_nil_r, EC.
    rewrite <- (app_nil_r (enc csr)), first_value_enc by assumption. reflexivity.
  Qed.

  (** A response starts with "REPD"; what follows its first 128 octets is what counts. *)
  Lemma view_header b : (128 <= length b)%nat -> firstn 4 b = str_REPD -> bytes_eqb (firstn 10 (skipn 128 b)) str_BEGIN = false ->
    bytes_eqb (firstn 4 (skipn 128 b)) str_REPD = false ->
    view utf8 time pem b = view utf8 time pem (skipn 128 b).
  Proof.
    intros HL HR HB HD.
    assert (E1 : bytes_eqb (firstn 10 b) str_BEGIN = false).
    { destruct b as [|b0 b]; [cbn in HL; lia|]. cbn [firstn] in HR. injection HR as -> _. reflexivity. }
    unfold view. rewrite E1, HB. cbn [obind]. unfold unwrap, strip_header. rewrite HD, andb_false_r, HR.
    change (bytes_eqb str_REPD str_REPD) with true. unfold skipped_header. destruct (Nat.leb_spec 128 (length b)); [reflexivity|lia].
  Qed.
End View.

(** ** The graph *)

Lemma tcb_graph_spec l : forall k ns es, tcb_graph k l = (ns, es) ->
  map fst ns = seq k (List.length l) /\
  es = (if Nat.ltb 0 k then fun r => r else @tl _) (map (fun i => ((i - 1)%nat, i)) (seq k (List.length l))) /\
  forall i t, nth_error l i = Some t -> nth_error ns i = Some ((k + i)%nat, tcb_node (Nat.eqb (k + i) 0) t).
Proof.
  induction l as [|t l IH]; intros k ns es H; cbn [tcb_graph] in H.
  - injection H as <- <-. split; [reflexivity|]. split; [destruct (Nat.ltb 0 k); reflexivity|]. intros [|i] t; discriminate.
  - destruct (tcb_graph (S k) l) as [ns0 es0] eqn:E. injection H as <- <-. destruct (IH _ _ _ E) as (E1 & E2 & E3).
    split; [cbn [map fst List.length seq]; rewrite E1; reflexivity|]. split.
    + rewrite E2. cbn [Nat.ltb Nat.leb List.length seq map]. destruct k; reflexivity.
    + intros [|i] u Hi; cbn [nth_error] in *.
      * injection Hi as ->. rewrite Nat.add_0_r. reflexivity.
      * rewrite (E3 _ _ Hi). replace (k + S i)%nat with (S k + i)%nat by lia. reflexivity.
Qed.
