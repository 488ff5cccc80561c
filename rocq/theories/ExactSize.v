(** ExactSize.v -- how large certificates and requests are, to the octet. *)
From Verif Require Import Base Errors Types Env StateOps Wire Instance Commands X509 X509Cert Lib Der DerProofs X509Run X509Spec
  X509Bytes X509Enc X509Tbs X509Cms Spec Exec Forest Codec Walk Measure X509Out X509Proper X509Gen X509Read X509ReadOk X509Made X509Size X509Width.
Open Scope N_scope.

(** A value of [n] octets with its identifier and length octets (X.690 8.1). *)
Definition tlv_size (n : N) : N :=
  n + if N.ltb n 128 then 2 else if N.ltb n 256 then 3 else if N.ltb n 65536 then 4 else if N.ltb n 16777216 then 5 else 6.
Lemma gss_tlv n : gss n = tlv_size n.
Proof.
  rewrite gss_unfold. unfold get_size_width, tlv_size.
  destruct (N.ltb n 128), (N.ltb n 256), (N.ltb n 65536), (N.ltb n 16777216); lia.
Qed.
Lemma tlv_short n : n < 128 -> tlv_size n = n + 2.
Proof. intros H. unfold tlv_size. destruct (N.ltb_spec n 128); [reflexivity|lia]. Qed.
Lemma tlv_mid n : 128 <= n < 256 -> tlv_size n = n + 3.
Proof. intros H. unfold tlv_size. destruct (N.ltb_spec n 128); [lia|]. destruct (N.ltb_spec n 256); [reflexivity|lia]. Qed.
Lemma tlv_long n : 256 <= n < 65536 -> tlv_size n = n + 4.
Proof.
  intros H. unfold tlv_size. destruct (N.ltb_spec n 128); [lia|]. destruct (N.ltb_spec n 256); [lia|]. destruct (N.ltb_spec n 65536); [reflexivity|lia].
Qed.

(** ** Parts *)

Lemma len_E_cons t l : len (E (Cons t l)) = gss (len (concat (map E l))).
Proof. cbn [enc_with]. apply len_tlv. Qed.
Lemma len_E_wrap t b l : len (E (Wrap t b l)) = gss (len b + len (concat (map E l))).
Proof. cbn [enc_with]. rewrite len_tlv, len_app. reflexivity. Qed.
Ltac sizes := repeat first [rewrite len_E_cons | rewrite len_E_wrap | rewrite len_E_list | rewrite len_E_nil | rewrite len_E_prim | rewrite len_tlv].

(** The length of the contents of the svn field. *)
Definition svn_octets (v : N) : N := len (der_uint v).
Definition entry_size (p : profile) (recursive : bool) (v : N) : N :=
  svn_octets v + match p, recursive with P256Sha256, true => 121 | P256Sha256, false => 65 | _, true => 154 | _, false => 81 end.
Definition digest_size (p : profile) : N := match p with P256Sha256 => 32 | _ => 48 end.

Lemma entry_exact p r t : len (tci_current t) = digest_size p -> len (tci_cumulative t) = digest_size p -> svn_octets (tci_svn t) <= 5 ->
  len (E (tcb_info p r t)) = entry_size p r (tci_svn t).
Proof.
  intros H1 H2 H3. unfold tcb_info, tcb_info_with, SEQUENCE, CTX, CTX_PRIM, fwid, OID, OCTETS, SEQUENCE, entry_size.
  assert (L1 : len (be_bytes 4 (tci_locality t)) = 4) by (unfold len, be_bytes; rewrite rev_length, length_le_bytes; reflexivity).
  assert (L2 : len (le_bytes 4 (tci_type t)) = 4) by (unfold len; rewrite length_le_bytes; reflexivity).
  assert (L3 : len (oid_content (digest_oid p)) = 9) by (destruct p; reflexivity).
  destruct r; cbn [app]; sizes; rewrite ?H1, ?H2, ?L1, ?L2, ?L3; fold (svn_octets (tci_svn t)); rewrite !gss_tlv.
  - destruct p; cbn [digest_size].
    + change (tlv_size (len (der_uint 0))) with 3. change (tlv_size 9) with 11. change (tlv_size 32) with 34.
      change (tlv_size (11 + (34 + 0))) with 47. change (tlv_size (47 + 0)) with 49. change (tlv_size 4) with 6.
      change (tlv_size (3 + (49 + 0))) with 54. change (tlv_size (54 + 0)) with 56.
      rewrite (tlv_short (svn_octets _)) by lia. rewrite tlv_short by lia. lia.
    + change (tlv_size (len (der_uint 0))) with 3. change (tlv_size 9) with 11. change (tlv_size 48) with 50.
      change (tlv_size (11 + (50 + 0))) with 63. change (tlv_size (63 + 0)) with 65. change (tlv_size 4) with 6.
      change (tlv_size (3 + (65 + 0))) with 70. change (tlv_size (70 + 0)) with 72.
      rewrite (tlv_short (svn_octets _)) by lia. rewrite tlv_mid by lia. lia.
    + change (tlv_size (len (der_uint 0))) with 3. change (tlv_size 9) with 11. change (tlv_size 48) with 50.
      change (tlv_size (11 + (50 + 0))) with 63. change (tlv_size (63 + 0)) with 65. change (tlv_size 4) with 6.
      change (tlv_size (3 + (65 + 0))) with 70. change (tlv_size (70 + 0)) with 72.
      rewrite (tlv_short (svn_octets _)) by lia. rewrite tlv_mid by lia. lia.
  - destruct p; cbn [digest_size].
    + change (tlv_size 9) with 11. change (tlv_size 32) with 34.
      change (tlv_size (11 + (34 + 0))) with 47. change (tlv_size (47 + 0)) with 49. change (tlv_size 4) with 6.
      rewrite (tlv_short (svn_octets _)) by lia. rewrite tlv_short by lia. lia.
    + change (tlv_size 9) with 11. change (tlv_size 48) with 50.
      change (tlv_size (11 + (50 + 0))) with 63. change (tlv_size (63 + 0)) with 65. change (tlv_size 4) with 6.
      rewrite (tlv_short (svn_octets _)) by lia. rewrite tlv_short by lia. lia.
    + change (tlv_size 9) with 11. change (tlv_size 48) with 50.
      change (tlv_size (11 + (50 + 0))) with 63. change (tlv_size (63 + 0)) with 65. change (tlv_size 4) with 6.
      rewrite (tlv_short (svn_octets _)) by lia. rewrite tlv_short by lia. lia.
Qed.

(** The measurements of a chain of contexts. *)
Fixpoint chain_size (p : profile) (recursive : bool) (cts : list context) : N :=
  match cts with [] => 0 | c :: l => entry_size p recursive (tci_svn (c_tci c)) + chain_size p recursive l end.
Lemma chain_size_app p r a b : chain_size p r (a ++ b) = chain_size p r a + chain_size p r b.
Proof. induction a as [|c a IH]; cbn [app chain_size]; [reflexivity|]. rewrite IH. lia. Qed.
Lemma chain_size_rev p r l : chain_size p r (rev l) = chain_size p r l.
Proof. induction l as [|c l IH]; [reflexivity|]. cbn [rev]. rewrite chain_size_app, IH. cbn [chain_size]. lia. Qed.
Definition sized_entry (p : profile) (c : context) : Prop :=
  len (tci_current (c_tci c)) = digest_size p /\ len (tci_cumulative (c_tci c)) = digest_size p /\ svn_octets (tci_svn (c_tci c)) <= 5.
Lemma chain_exact p r cts : Forall (sized_entry p) cts -> len (concat (map E (chain_infos p r cts))) = chain_size p r cts.
Proof.
  intros H. unfold chain_infos. rewrite <- chain_size_rev. apply Forall_rev in H. induction H as [|c l (H1 & H2 & H3) _ IH]; [reflexivity|].
  cbn [map concat]. rewrite len_app, IH. cbn [chain_size]. rewrite entry_exact by assumption. reflexivity.
Qed.

(** The extensions of a leaf without subject alternative name, for measurements of [x]
    octets and a label of [u] octets. *)
Definition multi_size (x : N) : N := tlv_size (8 + tlv_size (tlv_size x)).
Definition exts_size (x509 : bool) (u x : N) : N :=
  tlv_size (multi_size x + (u + 16) + 53 + if x509 then 33 else 0).
Lemma exts_exact x509 d infos : xd_critical d = false -> xd_ca d = false -> xd_san d = None ->
  len (xd_ueid d) <= 48 -> len (xd_aki d) = 20 ->
  len (E (extensions x509 d infos)) = exts_size x509 (len (xd_ueid d)) (len (concat (map E infos))).
Proof.
  intros H1 H2 H3 H4 H5. unfold extensions, other_extensions. rewrite H1, H2, H3. cbn [andb opt_san app].
  unfold SEQUENCE, exts_size. rewrite len_E_cons, gss_tlv. f_equal. rewrite len_E_list. 
  assert (EM : len (E (ext_multi_tcb_info false infos)) = multi_size (len (concat (map E infos)))).
  { unfold ext_multi_tcb_info, extension, SEQUENCE, OCTETS_OF, OID, multi_size. cbn [app]. sizes. rewrite !gss_tlv.
    change (tlv_size (len (oid_content id_dice_MultiTcbInfo))) with 8. change (len []) with 0. rewrite !N.add_0_r, !N.add_0_l. reflexivity. }
  rewrite EM.
  assert (EU : len (E (ext_ueid false (xd_ueid d))) = len (xd_ueid d) + 16).
  { unfold ext_ueid, extension, SEQUENCE, OCTETS_OF, OCTETS, OID. cbn [app]. sizes. rewrite !gss_tlv.
    change (tlv_size (len (oid_content id_dice_Ueid))) with 8. change (len []) with 0. set (u := len (xd_ueid d)) in *.
    rewrite (tlv_short u) by lia. rewrite (tlv_short (u + 2 + 0)) by lia. rewrite (tlv_short (0 + _)) by lia. rewrite tlv_short by lia. lia. }
  rewrite !len_E_list, EU.
  change (len (E (ext_basic_constraints false))) with 14. change (len (E (ext_key_usage false))) with 16.
  change (len (E (ext_extended_key_usage false))) with 23. 
  assert (EA : len (E (ext_authority_key_identifier (xd_aki d))) = 33).
  { unfold ext_authority_key_identifier, extension, SEQUENCE, OCTETS_OF, CTX_PRIM, OID. cbn [app]. sizes. rewrite H5. reflexivity. }
  destruct x509; cbn [app]; rewrite ?len_E_list, ?EA, len_E_nil; lia.
Qed.

(** ** Whole outputs *)

Lemma name_exact dg : len (E (name_der {| nm_cn := PrintableString str_dpe_leaf; nm_serial := PrintableString (firstn 64 (hex_of (digest_bytes dg))) |})) = 96.
Proof. apply (name_room false). apply subject_length. Qed.
(** The serial number of a certificate consists of 20 hexadecimal characters. *)
Lemma serial_exact dg : len (E (INTEGER (be_val (firstn 20 (firstn 64 (hex_of (digest_bytes dg))))))) = 22.
Proof.
  set (l := firstn 64 _). assert (L : length l = 64%nat) by apply subject_length.
  assert (F : Forall (fun b => 48 <= b < 128) (firstn 20 l)) by (apply Forall_firstn, Forall_firstn, hex_bytes, digest_bytes_bytes).
  assert (L2 : length (firstn 20 l) = 20%nat) by (rewrite firstn_length; lia).
  destruct (firstn 20 l) as [|b m] eqn:EB; [discriminate|]. unfold INTEGER. rewrite len_E_prim.
  inversion F as [|? ? Hb Fm]; subst.
  rewrite <- code_int_correct; [|eapply Forall_impl; [|exact F]; intros x Hx; unfold is_byte; cbv beta in Hx; lia|discriminate].
  rewrite len_code_int. unfold get_integer_bytes_size. rewrite gss_false.
  assert (E1 : integer_len_loop (b :: m) (len (b :: m)) = len (b :: m)).
  { cbn [integer_len_loop]. destruct (N.eqb_spec b 0); [lia|]. cbn [andb].
    assert (Z : N.land b 128 = 0).
    { apply N.bits_inj_0. intros n'. rewrite N.land_spec. change 128 with (2 ^ 7). rewrite N.pow2_bits_eqb. destruct (N.eqb_spec 7 n') as [<-|]; [|apply andb_false_r].
      rewrite andb_true_r. apply N.testbit_false. rewrite N.div_small; [reflexivity|]. change (2 ^ 7) with 128. lia. }
    rewrite Z. reflexivity. }
  rewrite E1. unfold len. rewrite L2. reflexivity.
Qed.

(** A certificate: issuer of [a] octets, label of [u], measurements of [x], signature
    element of [b]. *)
Definition cert_octets (p : profile) (a u x b : N) : N :=
  tlv_size (tlv_size (5 + 22 + alg_max p + a + 36 + 96 + spki_max p + tlv_size (exts_size true u x)) + alg_max p + b).
Lemma cert_exact p dg idn v k exts g a u x : key_of p k ->
  len (E idn) = a -> len (cv_not_before v) = 15 -> len (cv_not_after v) = 15 -> len (E exts) = exts_size true u x ->
  len (E (signed p (tbs_certificate p (be_val (firstn 20 (firstn 64 (hex_of (digest_bytes dg))))) idn
            (name_der {| nm_cn := PrintableString str_dpe_leaf; nm_serial := PrintableString (firstn 64 (hex_of (digest_bytes dg))) |})
            v (subject_public_key_info k) exts) g)) = cert_octets p a u x (len (E (signature_bits g))).
Proof.
  intros HK HI V1 V2 HX. unfold signed, tbs_certificate.
  assert (EV : len (E (SEQUENCE [GENERALIZED_TIME (cv_not_before v); GENERALIZED_TIME (cv_not_after v)])) = 36).
  { unfold GENERALIZED_TIME, SEQUENCE. sizes. rewrite V1, V2. reflexivity. }
  assert (E3 : len (E (CTX 3 [exts])) = tlv_size (exts_size true u x)).
  { unfold CTX. rewrite len_E_cons, len_E_list, len_E_nil, HX, N.add_0_r. apply gss_tlv. }
  pose proof (serial_exact dg) as ES. pose proof (name_exact dg) as EN. pose proof (spki_exact p k HK) as EK. pose proof (alg_room p) as EA.
  change (SEQUENCE [?y; ?z; ?t]) with (Cons 0x30 [y; z; t]). rewrite len_E_cons, !len_E_list, len_E_nil.
  change (SEQUENCE (CTX 0 [INTEGER 2] :: ?y)) with (Cons 0x30 (CTX 0 [INTEGER 2] :: y)). rewrite len_E_cons, !len_E_list, len_E_nil.
  rewrite EV, E3, ES, EN, EK, EA, HI. change (len (E (CTX 0 [INTEGER 2]))) with 5. rewrite !gss_tlv. unfold cert_octets.
  rewrite !N.add_0_r, !N.add_assoc. reflexivity.
Qed.

(** A signed request: issuer of [a] octets and serial number of [s] in the signer
    identifier, signature elements of [b] and [o]. *)
Definition request_octets (p : profile) (a s u x b o : N) : N :=
  let info := tlv_size (3 + 96 + spki_max p + tlv_size (tlv_size (11 + tlv_size (exts_size false u x)))) in
  let csr := tlv_size (info + alg_max p + b) in
  let signer := tlv_size (3 + tlv_size (a + s) + 13 + alg_max p + o) in
  tlv_size (11 + tlv_size (tlv_size (3 + 15 + tlv_size (11 + tlv_size (tlv_size csr)) + tlv_size signer))).
Lemma request_exact p dg k exts g1 g2 issuer serial u x : key_of p k -> len (E exts) = exts_size false u x ->
  len (E (content_info (signed_data p 1
      (signed p (certification_request_info
            (name_der {| nm_cn := PrintableString str_dpe_leaf; nm_serial := PrintableString (firstn 64 (hex_of (digest_bytes dg))) |})
            (subject_public_key_info k) exts) g1)
      (signer_info p 1 (sid_der (IssuerAndSerialNumber issuer serial)) g2))))
  = request_octets p (len issuer) (len (tlv code_len 2 (code_int serial))) u x (len (E (signature_bits g1))) (len (E (signature_octets g2))).
Proof.
  intros HK HX. unfold content_info, signed_data, request_octets.
  set (csr := signed _ _ _). set (si := signer_info _ _ _ _).
  assert (EC : len (E csr) = tlv_size (tlv_size (3 + 96 + spki_max p + tlv_size (tlv_size (11 + tlv_size (exts_size false u x)))) + alg_max p + len (E (signature_bits g1)))).
  { unfold csr, signed, certification_request_info, SEQUENCE, CTX, SET.
    rewrite len_E_cons, !len_E_list, len_E_nil, len_E_cons, !len_E_list, len_E_nil, name_exact, alg_room, (spki_exact p k HK).
    rewrite len_E_cons, len_E_list, len_E_nil, len_E_cons, !len_E_list, len_E_nil, len_E_cons, len_E_list, len_E_nil, HX, !gss_tlv.
    change (len (E (INTEGER 0))) with 3. change (len (E (OID id_extensionRequest))) with 11.
    rewrite !N.add_0_r, !N.add_assoc. reflexivity. }
  assert (ES : len (E si) = tlv_size (3 + tlv_size (len issuer + len (tlv code_len 2 (code_int serial))) + 13 + alg_max p + len (E (signature_octets g2)))).
  { unfold si, signer_info, sid_der, SEQUENCE. rewrite len_E_cons, !len_E_list, len_E_nil, len_E_cons, !len_E_list, len_E_nil, alg_room, digest_room, !gss_tlv.
    change (len (E (INTEGER 1))) with 3. cbn [enc_with]. rewrite !N.add_0_r, !N.add_assoc. reflexivity. }
  clearbody csr si. unfold SEQUENCE, CTX, SET, OCTETS_OF.
  rewrite len_E_cons, !len_E_list, len_E_nil, len_E_cons, len_E_list, len_E_nil, len_E_cons, !len_E_list, len_E_nil, len_E_cons, len_E_list, len_E_nil.
  rewrite len_E_cons, !len_E_list, len_E_nil, len_E_cons, len_E_list, len_E_nil, len_E_wrap, len_E_list, len_E_nil, len_E_cons, len_E_list, len_E_nil.
  rewrite digest_room, EC, ES, !gss_tlv.
  change (len (E (INTEGER 1))) with 3. change (len (E (OID id_signedData))) with 11. change (len (E (OID id_data))) with 11. change (tlv_size (13 + 0)) with 15. change (len []) with 0.
  rewrite !N.add_0_r, !N.add_0_l, !N.add_assoc. reflexivity.
Qed.
