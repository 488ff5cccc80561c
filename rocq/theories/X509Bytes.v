(** X509Bytes.v -- the byte strings written by the encoders of X509.v that do not
    depend on the measurement chain or on signing. *)
From Verif Require Import Base Errors Types StateOps Env Lib Der DerProofs X509 X509Run X509Spec.
Open Scope N_scope.

Notation E := (enc_with code_len).
Notation gss n := (get_structure_size n true).

Lemma tlv_unfold tag c : tlv code_len tag c = tag :: code_len (len c) ++ c.
Proof. reflexivity. Qed.
Lemma tlv_app tag c r : tlv code_len tag c ++ r = tag :: code_len (len c) ++ c ++ r.
Proof. unfold tlv. cbn [app]. rewrite <- app_assoc. reflexivity. Qed.
Lemma len_tlv tag c : len (tlv code_len tag c) = gss (len c).
Proof. rewrite tlv_unfold, len_cons, len_app, len_code_len. unfold get_structure_size. lia. Qed.
Lemma gss_unfold n : gss n = 1 + get_size_width n + n.
Proof. reflexivity. Qed.

Lemma gss_false n : get_structure_size n false = n.
Proof. reflexivity. Qed.

(** The OID constants of the code are the registered identifiers. *)
Lemma oids :
  map oid_content [id_ecdsa_with_SHA256; id_ecdsa_with_SHA384; id_ml_dsa_87; id_sha256; id_sha384;
                   id_ecPublicKey; id_prime256v1; id_secp384r1; id_at_commonName; id_at_serialNumber;
                   id_ce_subjectKeyIdentifier; id_ce_keyUsage; id_ce_subjectAltName;
                   id_ce_basicConstraints; id_ce_authorityKeyIdentifier; id_ce_extKeyUsage;
                   id_dice_MultiTcbInfo; id_dice_Ueid; id_dice_kp_attestLoc; id_dice_kp_eca;
                   id_signedData; id_data; id_extensionRequest]
  = [oid_ecdsa_sha256; oid_ecdsa_sha384; oid_mldsa; oid_sha256; oid_sha384; oid_ec_pub; oid_p256;
     oid_p384; oid_cn; oid_serial; oid_ski; oid_key_usage; oid_san; oid_basic_constraints; oid_aki;
     oid_eku; oid_multi_tcb; oid_ueid; oid_attest_loc; oid_eca; oid_signed_data; oid_data;
     oid_ext_request].
Proof. vm_compute. reflexivity. Qed.

(** ** Tactics *)

Ltac oid_consts :=
  change (oid_content id_ecdsa_with_SHA256) with oid_ecdsa_sha256 in *;
  change (oid_content id_ecdsa_with_SHA384) with oid_ecdsa_sha384 in *;
  change (oid_content id_ml_dsa_87) with oid_mldsa in *;
  change (oid_content id_sha256) with oid_sha256 in *;
  change (oid_content id_sha384) with oid_sha384 in *;
  change (oid_content id_ecPublicKey) with oid_ec_pub in *;
  change (oid_content id_prime256v1) with oid_p256 in *;
  change (oid_content id_secp384r1) with oid_p384 in *;
  change (oid_content id_at_commonName) with oid_cn in *;
  change (oid_content id_at_serialNumber) with oid_serial in *;
  change (oid_content id_ce_subjectKeyIdentifier) with oid_ski in *;
  change (oid_content id_ce_keyUsage) with oid_key_usage in *;
  change (oid_content id_ce_subjectAltName) with oid_san in *;
  change (oid_content id_ce_basicConstraints) with oid_basic_constraints in *;
  change (oid_content id_ce_authorityKeyIdentifier) with oid_aki in *;
  change (oid_content id_ce_extKeyUsage) with oid_eku in *;
  change (oid_content id_dice_MultiTcbInfo) with oid_multi_tcb in *;
  change (oid_content id_dice_Ueid) with oid_ueid in *;
  change (oid_content id_dice_kp_attestLoc) with oid_attest_loc in *;
  change (oid_content id_dice_kp_eca) with oid_eca in *;
  change (oid_content id_signedData) with oid_signed_data in *;
  change (oid_content id_data) with oid_data in *;
  change (oid_content id_extensionRequest) with oid_ext_request in *.

Create HintDb pure.

Ltac pitem := first [ apply pure_tag | apply pure_byte | apply pure_bytes | apply pure_size
                    | apply pure_tlv | apply pure_integer_bytes | apply pure_integer_untagged
                    | apply pure_ret | solve [eauto with pure] ].
Ltac pitems := first [apply Forall2_nil | apply Forall2_cons; [pitem|pitems]].

(** Predicted sizes against lengths. *)
Ltac sizes := 
  repeat (progress (unfold get_integer_size, get_bytes_size, get_extension_size; cbv beta iota));
  repeat first [rewrite app_nil_r | rewrite len_app | rewrite len_tlv | rewrite len_cons
               | rewrite len_nil | rewrite gss_false];
  unfold bool_size; rewrite ?N.add_0_r;
  try reflexivity; try lia.

Ltac beq :=
  lazymatch goal with
  | |- ?x = ?x => reflexivity
  | |- ?a :: ?l = tlv code_len ?t ?c => rewrite (tlv_unfold t c); cbn [app]; rewrite <- ?app_assoc; cbn [app]; beq
  | |- ?a :: ?l = tlv code_len ?t ?c ++ ?r => rewrite (tlv_app t c r); cbn [app]; rewrite <- ?app_assoc; cbn [app]; beq
  | |- code_len ?a ++ ?l = code_len ?b ++ ?l' =>
      apply (f_equal2 (@app N)); [apply (f_equal code_len); sizes|beq]
  | |- ?a :: ?l = ?b :: ?l' => apply (f_equal2 (@cons N)); [reflexivity|beq]
  | |- ?a ++ ?l = ?b ++ ?l' => apply (f_equal2 (@app N)); [reflexivity|beq]
  | |- _ => try reflexivity
  end.
Ltac bnorm := cbn [concat app map enc_with]; rewrite ?app_nil_r; repeat rewrite <- app_assoc;
  cbn [app].
Ltac pnode := eapply pure_eq; [eapply pure_seq; cbn [app]; pitems|oid_consts; bnorm; beq].

Section Enc.
  Variable cf : config.
  Variable crit : bool.
  Variable C : Type.
  Let p := prof cf.

  Lemma sig_oid_spec : oid_content (sig_alg_oid p) = sig_oid cf.
  Proof. unfold sig_oid, p. destruct (prof cf); reflexivity. Qed.
  Lemma hash_oid_spec : oid_content (digest_oid p) = hash_oid cf.
  Proof. unfold hash_oid, p. destruct (prof cf); reflexivity. Qed.

  Lemma pure_oid o : pure (encode_oid C o) (tlv code_len 6 o).
  Proof. apply pure_tlv. Qed.
  #[local] Hint Resolve pure_oid : pure.

  Lemma pure_sig_alg : pure (encode_sig_alg_id cf C) (E (alg_id (sig_alg_oid p))).
  Proof.
    unfold encode_sig_alg_id, alg_id, SEQUENCE, OID, get_sig_alg_id_size. rewrite sig_oid_spec.
    generalize (sig_oid cf) as o; intros o. pnode.
  Qed.
  Lemma len_sig_alg : len (E (alg_id (sig_alg_oid p))) = get_sig_alg_id_size cf true.
  Proof.
    unfold alg_id, SEQUENCE, OID, get_sig_alg_id_size. rewrite sig_oid_spec. bnorm. sizes.
  Qed.
  Lemma pure_hash_alg : pure (encode_hash_alg_id cf C) (E (alg_id (digest_oid p))).
  Proof.
    unfold encode_hash_alg_id, alg_id, SEQUENCE, OID, get_hash_alg_id_size. rewrite hash_oid_spec.
    generalize (hash_oid cf) as o; intros o. pnode.
  Qed.
  Lemma len_hash_alg : len (E (alg_id (digest_oid p))) = get_hash_alg_id_size cf true.
  Proof.
    unfold alg_id, SEQUENCE, OID, get_hash_alg_id_size. rewrite hash_oid_spec. bnorm. sizes.
  Qed.
  #[local] Hint Resolve pure_sig_alg pure_hash_alg : pure.

  Definition string_der (d : dir_string) : der :=
    match d with PrintableString b => PRINTABLE b | Utf8String b => UTF8 b end.
  Definition name_der (n : name) : der :=
    SEQUENCE [rdn id_at_commonName (string_der (nm_cn n)); rdn id_at_serialNumber (string_der (nm_serial n))].

  Lemma pure_rdn_string d : pure (encode_rdn_string C d) (E (string_der d)).
  Proof. destruct d; apply pure_tlv. Qed.
  Lemma len_string d : len (E (string_der d)) = gss (len (ds_bytes d)).
  Proof. destruct d; apply len_tlv. Qed.
  #[local] Hint Resolve pure_rdn_string : pure.

  Lemma runs_rdn n : runs true 0 (encode_rdn C n) (fpure (E (name_der n))).
  Proof.
    unfold encode_rdn. eapply runs_check, pure_runs.
    unfold name_der, rdn, SEQUENCE, SET, OID. pnode.
    all: rewrite ?len_string; reflexivity.
  Qed.

  Lemma pure_validity v : pure (encode_validity C v)
    (E (SEQUENCE [GENERALIZED_TIME (cv_not_before v); GENERALIZED_TIME (cv_not_after v)])).
  Proof. unfold encode_validity, SEQUENCE, GENERALIZED_TIME, get_validity_size. pnode. Qed.

  Lemma pure_version : pure (encode_version C) (E (CTX 0 [INTEGER 2])).
  Proof.
    unfold encode_version, CTX, INTEGER, encode_integer, get_integer_size.
    eapply pure_eq; [eapply pure_seq; pitems|]. vm_compute. reflexivity.
  Qed.

  (** *** Subject public keys *)

  Definition spki_der (k : pubkey) : option der :=
    match ecdsa_pub k, k with
    | Some (_, x, y), _ =>
        match p with
        | P256Sha256 => Some (SEQUENCE [SEQUENCE [OID id_ecPublicKey; OID id_prime256v1]; BITS (0x04 :: x ++ y)])
        | P384Sha384 => Some (SEQUENCE [SEQUENCE [OID id_ecPublicKey; OID id_secp384r1]; BITS (0x04 :: x ++ y)])
        | Mldsa87 => None
        end
    | None, PkMldsa b => Some (SEQUENCE [alg_id (sig_alg_oid p); BITS (mldsa_pub b)])
    | None, _ => None
    end.

  Lemma spki_match k : key_of p k -> spki_der k = Some (subject_public_key_info k).
  Proof.
    unfold key_of, spki_der. destruct p, k; cbn [ecdsa_pub]; tauto || reflexivity.
  Qed.

  Lemma pure_ecdsa_spki n x y curve arcs : len x = n -> len y = n -> oid_content arcs = curve ->
    pure (encode_ecdsa_spki C n x y curve)
         (E (SEQUENCE [SEQUENCE [OID id_ecPublicKey; OID arcs]; BITS (0x04 :: x ++ y)])).
  Proof.
    intros Hx Hy <-. unfold encode_ecdsa_spki, SEQUENCE, OID, BITS.
    assert (A : pure (encode_ec_pub_alg_id C (oid_content arcs))
                     (E (Cons 0x30 [Prim 6 (oid_content id_ecPublicKey); Prim 6 (oid_content arcs)]))).
    { unfold encode_ec_pub_alg_id, get_ec_pub_alg_id_size. pnode. }
    assert (LA : len (E (Cons 0x30 [Prim 6 (oid_content id_ecPublicKey); Prim 6 (oid_content arcs)]))
                 = get_ec_pub_alg_id_size (oid_content arcs) true).
    { unfold get_ec_pub_alg_id_size. oid_consts. bnorm. sizes. }
    eapply pure_eq; [eapply pure_seq; pitems|].
    remember (Cons 0x30 [Prim 6 (oid_content id_ecPublicKey); Prim 6 (oid_content arcs)]) as a eqn:Ea.
    clear Ea A. bnorm. beq.
    - rewrite LA. assert (1 + n + n = 1 + (len x + len y)) as -> by lia. lia.
  Qed.

  Lemma length_to_vec n b : len (to_buf n b) = N.of_nat n.
  Proof. unfold len. rewrite length_to_buf. reflexivity. Qed.

  Lemma pure_mldsa_spki b : pure (encode_mldsa_spki cf C (mldsa_pub b))
    (E (SEQUENCE [alg_id (sig_alg_oid p); BITS (mldsa_pub b)])).
  Proof.
    unfold encode_mldsa_spki, get_mldsa_spki_size. pose proof len_sig_alg as LA.
    generalize (mldsa_pub b) as v; intros v. pose proof pure_sig_alg as PA.
    change (SEQUENCE [alg_id (sig_alg_oid p); BITS v]) with (Cons 0x30 [alg_id (sig_alg_oid p); Prim 3 (0 :: v)]).
    revert LA PA. generalize (alg_id (sig_alg_oid p)) as a. intros a LA PA.
    eapply pure_eq; [eapply pure_seq; pitems|]. bnorm. beq.
  Qed.

  Definition fspki (k : pubkey) : gen C :=
    match spki_der k with Some d => fpure (E d) | None => ffail InvalidArgument end.
  Lemma runs_spki k : runs false 0 (encode_spki cf C k) (fspki k).
  Proof.
    unfold fspki, spki_der, encode_spki. destruct k as [x y|x y|b]; cbn [ecdsa_pub].
    1,2: unfold p; destruct (prof cf);
      [apply pure_runs, pure_ecdsa_spki|apply pure_runs, pure_ecdsa_spki|apply runs_lift_err];
      rewrite ?length_to_vec; reflexivity.
    apply pure_runs, pure_mldsa_spki.
  Qed.

  (** *** Signatures *)

  Definition sig_int (l : bytes) : der := Prim 2 (code_int l).
  Lemma sig_int_spec n b : (0 < n)%nat -> sig_int (to_buf n b) = INTEGER (be_val (to_buf n b)).
  Proof.
    intros H. unfold sig_int, INTEGER. rewrite code_int_correct; [reflexivity|apply all_bytes_to_buf|].
    intros E0. pose proof (length_to_buf n b) as L. rewrite E0 in L. cbn in L. lia.
  Qed.
  Lemma len_int l : len (tlv code_len T_INTEGER (code_int l)) = get_integer_bytes_size l true.
  Proof. rewrite len_tlv, len_code_int. reflexivity. Qed.

  (** The code's formula for the BIT STRING is off by one when the SEQUENCE is
      127 or 255 octets long, which 32 and 48 byte numbers never are. *)
  Lemma pure_ecdsa_bits r s :
    get_size_width (1 + (get_integer_bytes_size r true + get_integer_bytes_size s true))
    = get_size_width (get_integer_bytes_size r true + get_integer_bytes_size s true) ->
    pure (encode_ecdsa_sig_bit_string C r s) (E (BITS_OF (SEQUENCE [sig_int r; sig_int s]))).
  Proof.
    intros HW. unfold encode_ecdsa_sig_bit_string, BITS_OF, SEQUENCE, sig_int. pnode.
    - rewrite !len_code_int. rewrite gss_unfold, HW.
      change (gss (get_integer_bytes_size r false)) with (get_integer_bytes_size r true).
      change (gss (get_integer_bytes_size s false)) with (get_integer_bytes_size s true).
      rewrite gss_unfold. lia.
    - rewrite !len_code_int. reflexivity.
  Qed.
  Lemma pure_ecdsa_octets r s :
    pure (encode_ecdsa_sig_octet_string C r s) (E (OCTETS_OF (SEQUENCE [sig_int r; sig_int s]))).
  Proof.
    unfold encode_ecdsa_sig_octet_string, OCTETS_OF, SEQUENCE, sig_int. pnode.
    all: rewrite !len_code_int; reflexivity.
  Qed.

  Lemma int_size_le n b : get_integer_bytes_size (to_buf n b) false <= N.of_nat n + 1.
  Proof.
    unfold get_integer_bytes_size, get_structure_size.
    destruct (int_size_bound (to_buf n b) (len (to_buf n b))) as [A _]; [lia|].
    rewrite length_to_vec in *. exact A.
  Qed.
  Lemma width_small n : n < 128 -> get_size_width n = 1.
  Proof. intros H. unfold get_size_width. destruct (N.ltb_spec n 128); [reflexivity|lia]. Qed.
  Lemma int_size_small n b : (n <= 48)%nat -> get_integer_bytes_size (to_buf n b) true <= 51.
  Proof.
    intros H. pose proof (int_size_le n b) as L.
    change (gss (get_integer_bytes_size (to_buf n b) false) <= 51).
    rewrite gss_unfold, width_small by lia. lia.
  Qed.

  Lemma pure_signature_bits g :
    pure (encode_signature_bit_string cf C g)
         (E (alg_id (sig_alg_oid p)) ++ E (signature_bits g)).
  Proof.
    unfold encode_signature_bit_string, signature_bits, ecdsa_sig_value.
    destruct g as [r s|r s|b]; cbn [ecdsa_sig]; (apply pure_add; [apply pure_sig_alg|]).
    1,2: rewrite <- !sig_int_spec by lia; apply pure_ecdsa_bits;
      pose proof (int_size_small 32 r); pose proof (int_size_small 32 s);
      pose proof (int_size_small 48 r); pose proof (int_size_small 48 s);
      rewrite !width_small by lia; reflexivity.
    unfold encode_mldsa_sig_bit_string, BITS, mldsa_sig. pnode.
  Qed.

  Lemma pure_signature_octets g :
    pure (encode_signature_octet_string cf C g)
         (E (alg_id (sig_alg_oid p)) ++ E (signature_octets g)).
  Proof.
    unfold encode_signature_octet_string, signature_octets, ecdsa_sig_value.
    destruct g as [r s|r s|b]; cbn [ecdsa_sig]; (apply pure_add; [apply pure_sig_alg|]).
    1,2: rewrite <- !sig_int_spec by lia; apply pure_ecdsa_octets.
    apply pure_tlv.
  Qed.
  Lemma len_signature_octets g :
    len (E (alg_id (sig_alg_oid p)) ++ E (signature_octets g)) = get_signature_octet_string_size cf g true.
  Proof.
    rewrite len_app, len_sig_alg. unfold get_signature_octet_string_size, signature_octets, ecdsa_sig_value.
    destruct g as [r s|r s|b]; cbn [ecdsa_sig]; f_equal.
    1,2: rewrite <- !sig_int_spec by lia; unfold OCTETS_OF, SEQUENCE, sig_int, get_ecdsa_sig_octet_size;
      bnorm; rewrite !len_tlv, len_app, !len_tlv, !len_code_int; reflexivity.
    unfold OCTETS, mldsa_sig. bnorm. apply len_tlv.
  Qed.

  (** *** TcbInfo *)

  Definition svn_octets (t : tci) : bytes := code_int (be_bytes 8 (tci_svn t)).
  Definition tcb_der (recursive : bool) (t : tci) : der := tcb_info_with (svn_octets t) p recursive t.

  Lemma be_val_be_bytes n v : v < 256 ^ N.of_nat n -> be_val (be_bytes n v) = v.
  Proof. intros H. unfold be_val, be_bytes. rewrite rev_involutive. apply le_val_le_bytes, H. Qed.
  Lemma svn_spec t : tci_svn t < 2 ^ 32 -> svn_octets t = der_uint (tci_svn t).
  Proof.
    intros H. unfold svn_octets. rewrite code_int_correct.
    - rewrite be_val_be_bytes; [reflexivity|]. eapply N.lt_trans; [exact H|reflexivity].
    - apply all_bytes_rev, all_bytes_le_bytes.
    - unfold be_bytes. intros E0. apply (f_equal (@length N)) in E0. rewrite rev_length in E0.
      cbn [length] in E0. rewrite length_le_bytes in E0. discriminate.
  Qed.
  Lemma tcb_spec recursive t : tci_svn t < 2 ^ 32 -> tcb_der recursive t = tcb_info p recursive t.
  Proof. intros H. unfold tcb_der, tcb_info. rewrite svn_spec by exact H. reflexivity. Qed.

  Lemma pure_fwid d : pure (encode_fwid cf C d) (E (fwid p d)).
  Proof.
    unfold encode_fwid, fwid, SEQUENCE, OID, OCTETS, get_fwid_size. rewrite hash_oid_spec.
    generalize (hash_oid cf) as o; intros o. pnode.
  Qed.
  Lemma len_fwid d : len (E (fwid p d)) = get_fwid_size cf d true.
  Proof.
    unfold fwid, SEQUENCE, OID, OCTETS, get_fwid_size. rewrite hash_oid_spec. bnorm. sizes.
  Qed.
  #[local] Hint Resolve pure_fwid : pure.

  Lemma zero_octets : code_int (be_bytes 8 0) = der_uint 0.
  Proof. vm_compute. reflexivity. Qed.
  Lemma len4_be v : len (be_bytes 4 v) = 4.
  Proof. unfold len, be_bytes. rewrite rev_length, length_le_bytes. reflexivity. Qed.
  Lemma len4_le v : len (le_bytes 4 v) = 4.
  Proof. unfold len. rewrite length_le_bytes. reflexivity. Qed.

  Lemma get_int_tagged l : get_integer_bytes_size l true = gss (len (code_int l)).
  Proof. rewrite len_code_int. reflexivity. Qed.

  Lemma len_tcb recursive t : len (E (tcb_der recursive t)) = get_tcb_info_size cf t recursive true.
  Proof.
    unfold tcb_der, tcb_info_with, get_tcb_info_size, get_integer_size, SEQUENCE, CTX, CTX_PRIM, svn_octets.
    rewrite <- zero_octets. rewrite !get_int_tagged.
    pose proof (len_fwid (tci_current t)) as L1.
    pose proof (len_fwid (tci_cumulative t)) as L2. revert L1 L2.
    generalize (fwid p (tci_current t)) (fwid p (tci_cumulative t)). intros f1 f2 L1 L2.
    generalize (code_int (be_bytes 8 (tci_svn t))) (code_int (be_bytes 8 0)). intros i1 i2.
    destruct recursive; bnorm; sizes; rewrite ?len4_be, ?len4_le, ?L1, ?L2; f_equal; lia.
  Qed.
  Lemma tcb_size_false recursive t : get_tcb_info_size cf t recursive true = gss (get_tcb_info_size cf t recursive false).
  Proof. reflexivity. Qed.

  Lemma pure_tcb recursive t : pure (encode_tcb_info cf C t recursive) (E (tcb_der recursive t)).
  Proof.
    pose proof (len_tcb recursive t) as LT. rewrite tcb_size_false in LT.
    assert (LS : get_tcb_info_size cf t recursive false =
      match tcb_der recursive t with Cons _ ks => len (concat (map E ks)) | _ => 0 end).
    { unfold tcb_der, tcb_info_with, SEQUENCE in *. cbn [enc_with] in LT. rewrite len_tlv in LT.
      revert LT. match goal with |- gss ?a = gss ?b -> _ => generalize a b end. intros a b.
      rewrite !gss_unfold. intros H. symmetry.
      assert (M : forall x y, x < y -> 1 + get_size_width x + x < 1 + get_size_width y + y).
      { intros x y Hxy. unfold get_size_width.
        destruct (N.ltb_spec x 128), (N.ltb_spec y 128), (N.ltb_spec x 256), (N.ltb_spec y 256),
          (N.ltb_spec x 65536), (N.ltb_spec y 65536), (N.ltb_spec x 16777216), (N.ltb_spec y 16777216); lia. }
      destruct (N.lt_trichotomy a b) as [L|[L|L]]; [specialize (M _ _ L); lia|exact L|specialize (M _ _ L); lia]. }
    unfold encode_tcb_info. rewrite LS. clear LS LT.
    unfold tcb_der, tcb_info_with, encode_integer, get_integer_size, SEQUENCE, CTX, CTX_PRIM, svn_octets.
    rewrite <- zero_octets. rewrite !get_int_tagged.
    pose proof (len_fwid (tci_current t)) as L1.
    pose proof (len_fwid (tci_cumulative t)) as L2.
    pose proof (pure_fwid (tci_current t)) as P1.
    pose proof (pure_fwid (tci_cumulative t)) as P2. revert L1 L2 P1 P2.
    generalize (fwid p (tci_current t)) (fwid p (tci_cumulative t)). intros f1 f2 L1 L2 P1 P2.
    destruct recursive.
    - eapply pure_eq; [eapply pure_seq; cbn [app]; pitems|]. bnorm. beq.
      all: rewrite ?L1, ?L2; reflexivity.
    - eapply pure_eq; [eapply pure_seq; cbn [app]; pitems|]. bnorm. beq.
      all: rewrite ?L1, ?L2; reflexivity.
  Qed.

  (** *** Extensions *)

  Definition crit_val (b : bool) : option N := if b then Some 0xFF else None.
  Definition ext_head (oid : bytes) (critical : bool) (n : N) : bytes :=
    0x30 :: code_len (get_extension_size oid critical n false)
         ++ tlv code_len 6 oid ++ (if critical then tlv code_len 1 [0xFF] else []) ++ 4 :: code_len n.

  Lemma pure_ext_head oid critical n :
    pure (encode_extension_header C oid (crit_val critical) n) (ext_head oid critical n).
  Proof.
    unfold encode_extension_header, ext_head. destruct critical; cbn [crit_val].
    all: eapply pure_eq; [eapply pure_seq; cbn [app]; pitems|].
    all: cbn [concat app]; rewrite ?app_nil_r; reflexivity.
  Qed.
  Lemma len_ext_head oid critical n :
    len (ext_head oid critical n) + n = get_extension_size oid critical n true.
  Proof.
    unfold ext_head. change (get_extension_size oid critical n true) with (gss (get_extension_size oid critical n false)).
    set (G := get_extension_size oid critical n false).
    assert (EG : G = gss (len oid) + (if critical then gss bool_size else 0) + gss n) by reflexivity.
    rewrite gss_unfold, len_cons, !len_app, len_code_len, len_tlv, len_cons, len_code_len.
    rewrite EG at 3. rewrite (gss_unfold n).
    destruct critical; [rewrite len_tlv; change (len [255]) with bool_size|rewrite len_nil]; lia.
  Qed.

  Lemma ext_head_spec arcs critical d :
    ext_head (oid_content arcs) critical (len (E d)) ++ E d = E (extension arcs critical d).
  Proof.
    unfold ext_head, extension, SEQUENCE, OID, OCTETS_OF, TRUE. symmetry.
    destruct critical; cbn [app enc_with map concat]; rewrite !app_nil_r; rewrite tlv_unfold; cbn [app];
      f_equal; rewrite <- ?app_assoc; (apply (f_equal2 (@app N)); [f_equal|]).
    all: unfold get_extension_size; rewrite ?gss_false; sizes.
    all: cbn [app]; rewrite <- ?app_assoc; reflexivity.
  Qed.
  Lemma len_extension arcs critical d :
    len (E (extension arcs critical d)) = get_extension_size (oid_content arcs) critical (len (E d)) true.
  Proof. rewrite <- ext_head_spec, len_app. apply len_ext_head. Qed.

  Lemma pure_extension arcs oid critical d n ms bss :
    oid_content arcs = oid -> Forall2 pure ms bss -> concat bss = E d -> len (E d) = n ->
    pure (seq_of (encode_extension_header C oid (crit_val critical) n :: ms)) (E (extension arcs critical d)).
  Proof.
    intros <- HF HC <-. eapply pure_eq.
    - eapply pure_seq. constructor; [apply pure_ext_head|exact HF].
    - cbn [concat]. rewrite HC. apply ext_head_spec.
  Qed.

  Ltac pext arcs :=
    eapply (pure_extension arcs); [reflexivity|cbn [app]; pitems|oid_consts; bnorm; beq|oid_consts; bnorm; sizes].

  Variable md : measurement_data.
  Definition xd : ext_data :=
    {| xd_critical := crit; xd_ca := md_is_ca md; xd_ueid := md_label md; xd_ski := md_ski md;
       xd_aki := md_aki md; xd_san := md_san md |}.

  Lemma pure_ueid : pure (encode_ueid crit C md) (E (ext_ueid crit (md_label md))).
  Proof.
    unfold encode_ueid, ext_ueid, SEQUENCE, OCTETS. change (critical_dice crit) with (crit_val crit).
    pext id_dice_Ueid.
  Qed.
  Lemma len_ueid : len (E (ext_ueid crit (md_label md))) = get_ueid_size crit md true.
  Proof.
    unfold ext_ueid, get_ueid_size. rewrite len_extension. unfold SEQUENCE, OCTETS. oid_consts. f_equal.
    bnorm. sizes.
  Qed.

  Lemma pure_bc : pure (encode_basic_constraints C md) (E (ext_basic_constraints (md_is_ca md))).
  Proof.
    unfold encode_basic_constraints, ext_basic_constraints, SEQUENCE, TRUE. change (Some 255) with (crit_val true).
    destruct (md_is_ca md); pext id_ce_basicConstraints.
  Qed.
  Lemma len_bc : len (E (ext_basic_constraints (md_is_ca md))) = get_basic_constraints_size md true.
  Proof.
    unfold ext_basic_constraints, get_basic_constraints_size. rewrite len_extension.
    unfold SEQUENCE, TRUE. oid_consts. f_equal. destruct (md_is_ca md); reflexivity.
  Qed.

  Lemma pure_ku : pure (encode_key_usage C (md_is_ca md)) (E (ext_key_usage (md_is_ca md))).
  Proof.
    unfold encode_key_usage, ext_key_usage. change (Some 255) with (crit_val true).
    destruct (md_is_ca md); pext id_ce_keyUsage.
  Qed.
  Lemma len_ku : len (E (ext_key_usage (md_is_ca md))) = get_key_usage_size true.
  Proof.
    unfold ext_key_usage, get_key_usage_size. rewrite len_extension. oid_consts. f_equal.
    destruct (md_is_ca md); reflexivity.
  Qed.

  Lemma pure_eku : pure (encode_extended_key_usage C md) (E (ext_extended_key_usage (md_is_ca md))).
  Proof.
    unfold encode_extended_key_usage, ext_extended_key_usage, SEQUENCE, OID, policy_oid.
    change (Some 255) with (crit_val true). destruct (md_is_ca md); pext id_ce_extKeyUsage.
  Qed.
  Lemma len_eku : len (E (ext_extended_key_usage (md_is_ca md))) = get_eku_size md true.
  Proof.
    unfold ext_extended_key_usage, get_eku_size, policy_oid. rewrite len_extension.
    unfold SEQUENCE, OID. oid_consts. f_equal. destruct (md_is_ca md); reflexivity.
  Qed.

  Definition ski_part (x509 : bool) : list der :=
    if md_is_ca md && x509 then [ext_subject_key_identifier (md_ski md)] else [].
  Definition aki_part (x509 : bool) : list der :=
    if x509 then [ext_authority_key_identifier (md_aki md)] else [].

  Lemma pure_ski x509 : pure (encode_ski_extension C md x509) (concat (map E (ski_part x509))).
  Proof.
    unfold encode_ski_extension, ski_part. destruct (md_is_ca md), x509; cbn [negb andb orb map concat];
      try apply pure_ret. rewrite app_nil_r. unfold ext_subject_key_identifier, OCTETS.
    change None with (crit_val false). pext id_ce_subjectKeyIdentifier.
  Qed.
  Lemma len_ski x509 : len (concat (map E (ski_part x509))) = get_ski_extension_size md true x509.
  Proof.
    unfold ski_part, get_ski_extension_size. destruct (md_is_ca md), x509; cbn [negb andb orb map concat]; try reflexivity.
    rewrite app_nil_r. unfold ext_subject_key_identifier. rewrite len_extension. oid_consts. f_equal.
    apply len_tlv.
  Qed.

  Lemma pure_aki x509 : pure (encode_aki_extension C md x509) (concat (map E (aki_part x509))).
  Proof.
    unfold encode_aki_extension, aki_part. destruct x509; cbn [negb map concat]; try apply pure_ret.
    rewrite app_nil_r. unfold ext_authority_key_identifier, SEQUENCE, CTX_PRIM, encode_key_identifier, get_key_identifier_size.
    change None with (crit_val false). pext id_ce_authorityKeyIdentifier.
  Qed.
  Lemma len_aki x509 : len (concat (map E (aki_part x509))) = get_aki_extension_size md true x509.
  Proof.
    unfold aki_part, get_aki_extension_size. destruct x509; cbn [negb map concat]; try reflexivity.
    rewrite app_nil_r. unfold ext_authority_key_identifier. rewrite len_extension. oid_consts. f_equal.
    unfold SEQUENCE, CTX_PRIM, get_key_identifier_size. bnorm. sizes.
  Qed.

  Lemma pure_san : pure (encode_san_extension C md) (concat (map E (opt_san (md_san md)))).
  Proof.
    unfold encode_san_extension, opt_san. destruct (md_san md) as [o|]; cbn [map concat]; [|apply pure_ret].
    rewrite app_nil_r. unfold ext_subject_alt_name, SEQUENCE, CTX, UTF8, get_key_identifier_size.
    change None with (crit_val false).
    assert (A : pure (encode_other_name C o) (E (Cons 0xA0 [Prim 6 (on_oid o); Cons 0xA0 [Prim 12 (on_value o)]]))).
    { unfold encode_other_name, encode_other_name_value, get_other_name_size, get_key_identifier_size.
      assert (B : pure (seq_of [encode_byte (N.lor CONTEXT_SPECIFIC CONSTRUCTED);
                 encode_size_field (get_structure_size (get_structure_size (len (on_value o)) false) true);
                 encode_tlv C T_UTF8_STRING (on_value o)]) (E (Cons 0xA0 [Prim 12 (on_value o)]))) by pnode.
      pnode. }
    assert (L : len (E (Cons 0xA0 [Prim 6 (on_oid o); Cons 0xA0 [Prim 12 (on_value o)]])) = get_other_name_size o true).
    { unfold get_other_name_size, get_key_identifier_size. bnorm. sizes. }
    change (0xA0 + 0) with 0xA0.
    revert A L. generalize (Cons 0xA0 [Prim 6 (on_oid o); Cons 0xA0 [Prim 12 (on_value o)]]). intros d A L.
    pext id_ce_subjectAltName. rewrite L. reflexivity.
  Qed.
  Lemma len_san : len (concat (map E (opt_san (md_san md)))) = get_san_extension_size md true.
  Proof.
    unfold opt_san, get_san_extension_size. destruct (md_san md) as [o|]; cbn [map concat]; [|reflexivity].
    rewrite app_nil_r. unfold ext_subject_alt_name. rewrite len_extension. oid_consts. f_equal.
    unfold SEQUENCE, CTX, UTF8, get_other_name_size, get_key_identifier_size. bnorm. sizes.
  Qed.

  Definition others (x509 : bool) : bytes := concat (map E (other_extensions x509 xd)).
  Lemma others_eq x509 : others x509 =
    E (ext_ueid crit (md_label md)) ++ E (ext_basic_constraints (md_is_ca md)) ++ E (ext_key_usage (md_is_ca md))
    ++ E (ext_extended_key_usage (md_is_ca md)) ++ concat (map E (ski_part x509))
    ++ concat (map E (aki_part x509)) ++ concat (map E (opt_san (md_san md))).
  Proof.
    unfold others, other_extensions, ski_part, aki_part. cbn [xd xd_critical xd_ca xd_ueid xd_ski xd_aki xd_san].
    rewrite !map_app, !concat_app. cbn [map concat app]. rewrite <- !app_assoc. reflexivity.
  Qed.
  Lemma len_others x509 : len (others x509) =
    get_ueid_size crit md true + get_basic_constraints_size md true + get_key_usage_size true
    + get_eku_size md true + get_ski_extension_size md true x509 + get_aki_extension_size md true x509
    + get_san_extension_size md true.
  Proof.
    rewrite others_eq, !len_app, len_ueid, len_bc, len_ku, len_eku, len_ski, len_aki, len_san. lia.
  Qed.
End Enc.
