(** X509ReadOk.v -- the reader of X509Read.v gets back from an encoded certificate or
    signed request exactly the measurements of the chain. *)
From Verif Require Import Base Types Env Lib Der DerProofs X509Spec X509Bytes Spec Codec Measure X509Out X509Proper X509Read.
Open Scope N_scope.

Lemma decode_enc t : proper t -> small t -> decode (enc t) = Some (flat t).
Proof. intros HP HS. unfold decode. rewrite (enc_decodes t HP HS). reflexivity. Qed.

Lemma is_oid_self arcs : is_oid arcs (flat (OID arcs)) = true.
Proof. unfold is_oid, OID. cbn [flat]. rewrite bytes_eqb_refl. reflexivity. Qed.
Lemma is_oid_other a b : bytes_eqb (oid_content b) (oid_content a) = false -> is_oid a (flat (OID b)) = false.
Proof. intros H. unfold is_oid, OID. cbn [flat]. rewrite H. reflexivity. Qed.

Lemma members_flat tag l : members tag (flat (Cons tag l)) = Some (map flat l).
Proof. unfold members. cbn [flat]. rewrite N.eqb_refl. reflexivity. Qed.
Lemma read_one_flat tag t : read_one tag (flat (Cons tag [t])) = Some (flat t).
Proof. unfold read_one. rewrite members_flat. reflexivity. Qed.

Lemma contents_flat tag c : contents tag (flat (Prim tag c)) = Some c.
Proof. unfold contents. cbn [flat]. rewrite N.eqb_refl. reflexivity. Qed.

Lemma read_fwid_flat p d : read_fwid p (flat (fwid p d)) = Some d.
Proof.
  unfold read_fwid, fwid, SEQUENCE. rewrite members_flat. cbn [obind map]. rewrite is_oid_self. reflexivity.
Qed.

Lemma signed_uint v : signed_val (der_uint v) = Z.of_N v.
Proof. apply der_uint_correct. Qed.

Lemma read_entry_flat p r c : u32 (tci_locality (c_tci c)) -> u32 (tci_type (c_tci c)) ->
  read_entry p (flat (tcb_info p r (c_tci c))) = Some (reported r c).
Proof.
  intros H1 H2. unfold read_entry, tcb_info, tcb_info_with, SEQUENCE. rewrite members_flat.
  cbn [obind]. unfold reported.
  assert (E1 : be_val (be_bytes 4 (tci_locality (c_tci c))) = tci_locality (c_tci c)) by (apply be_val_be_bytes; exact H1).
  assert (E2 : le_val (le_bytes 4 (tci_type (c_tci c))) = tci_type (c_tci c)) by (apply le4; exact H2).
  assert (L1 : length (be_bytes 4 (tci_locality (c_tci c))) = 4%nat) by (unfold be_bytes; rewrite rev_length; apply length_le_bytes).
  assert (L2 : length (le_bytes 4 (tci_type (c_tci c))) = 4%nat) by apply length_le_bytes.
  destruct r; cbn [app map]; unfold CTX; change (160 + 6) with 0xA6.
  - unfold CTX_PRIM. change (128 + 3) with 0x83; change (128 + 8) with 0x88; change (128 + 9) with 0x89; change (128 + 1) with 0x81.
    rewrite !contents_flat. cbn [obind]. rewrite read_one_flat. cbn [obind]. rewrite read_fwid_flat. cbn [obind].
    rewrite L1, L2. cbn [Nat.eqb andb guard obind].
    unfold read_register. change (160 + 11) with 0xAB. rewrite read_one_flat. cbn [obind]. unfold SEQUENCE. rewrite members_flat.
    cbn [obind map]. change (160 + 2) with 0xA2. rewrite read_one_flat, contents_flat. cbn [obind]. rewrite read_fwid_flat. cbn [obind].
    rewrite !signed_uint, E1, E2. reflexivity.
  - unfold CTX_PRIM. change (128 + 3) with 0x83; change (128 + 8) with 0x88; change (128 + 9) with 0x89.
    rewrite !contents_flat. cbn [obind]. rewrite read_one_flat. cbn [obind]. rewrite read_fwid_flat. cbn [obind].
    rewrite L1, L2. cbn [Nat.eqb andb guard obind].
    rewrite signed_uint, E1, E2. reflexivity.
Qed.

Definition entry_words (c : context) : Prop :=
  u32 (tci_locality (c_tci c)) /\ u32 (tci_type (c_tci c)) /\
  all_bytes (tci_current (c_tci c)) /\ all_bytes (tci_cumulative (c_tci c)).
Lemma read_chain p r cts : Forall entry_words cts ->
  all_some (map (read_entry p) (map flat (chain_infos p r cts))) = Some (map (reported r) (rev cts)).
Proof.
  intros H. unfold chain_infos. apply Forall_rev in H. induction H as [|c l (H1 & H2 & _) HF IH]; [reflexivity|].
  cbn [map all_some]. rewrite read_entry_flat by assumption. rewrite IH. reflexivity.
Qed.

(** Parts of a small encoding are small. *)
Lemma small_kid_cons tag l t : small (Cons tag l) -> In t l -> small t.
Proof.
  unfold small. intros H Hin. change (enc (Cons tag l)) with (tlv der_len tag (concat (map enc l))) in H. rewrite tlv_length in H.
  pose proof (concat_kid_small (enc t) (map enc l) (in_map enc _ _ Hin)). lia.
Qed.
Lemma small_kid_wrap tag pre l t : small (Wrap tag pre l) -> In t l -> small t.
Proof.
  unfold small. intros H Hin. change (enc (Wrap tag pre l)) with (tlv der_len tag (pre ++ concat (map enc l))) in H.
  rewrite tlv_length, app_length in H.
  pose proof (concat_kid_small (enc t) (map enc l) (in_map enc _ _ Hin)). lia.
Qed.

Lemma is_ext_flat oid o crit v : 
  match members 0x30 (flat (extension o crit v)) with Some (x :: _) => is_oid oid x | _ => false end
  = is_oid oid (flat (OID o)).
Proof. unfold extension, SEQUENCE. rewrite members_flat. reflexivity. Qed.

Definition lacks (oid : list N) (l : list der) : Prop :=
  Forall (fun e => match members 0x30 e with Some (o :: _) => is_oid oid o | _ => false end = false) (map flat l).
Lemma filter_lacks oid l : lacks oid l ->
  filter (fun e => match members 0x30 e with Some (o :: _) => is_oid oid o | _ => false end) (map flat l) = [].
Proof. intros HA. unfold lacks in HA. induction HA as [|e l' He HA IH]; [reflexivity|]. cbn [filter]. rewrite He. exact IH. Qed.
Lemma find_ext_here oid c v l1 l2 : lacks oid l1 -> lacks oid l2 ->
  find_ext oid (map flat (l1 ++ extension oid c v :: l2)) = Some (c, enc v).
Proof.
  intros H1 H2. unfold find_ext. rewrite map_app, filter_app, (filter_lacks _ _ H1). cbn [map filter app].
  rewrite is_ext_flat, is_oid_self, (filter_lacks _ _ H2). unfold extension, SEQUENCE.
  rewrite members_flat. cbn [obind]. destruct c; cbn [app map]; unfold OCTETS_OF; cbn [flat contents obind];
    change (N.eqb 4 4) with true; cbv iota; cbn [obind map concat app]; rewrite app_nil_r; reflexivity.
Qed.
Lemma find_ext_none oid l : lacks oid l -> find_ext oid (map flat l) = None.
Proof. intros H. unfold find_ext. rewrite (filter_lacks _ _ H). reflexivity. Qed.
Ltac lacking :=
  unfold lacks; apply Forall_map; unfold ext_multi_tcb_info, ext_ueid, ext_basic_constraints, ext_key_usage,
    ext_extended_key_usage, ext_subject_key_identifier, ext_authority_key_identifier, opt_san, ext_subject_alt_name;
  repeat (apply Forall_app; split);
  repeat match goal with |- Forall _ (if ?b then _ else _) => destruct b | |- Forall _ (match ?o with Some _ => _ | None => _ end) => destruct o end;
  repeat (apply Forall_cons; [rewrite is_ext_flat; reflexivity|]); apply Forall_nil.

Lemma find_infos x509 d infos :
  find_ext id_dice_MultiTcbInfo (map flat (ext_multi_tcb_info (xd_critical d) infos :: other_extensions x509 d))
  = Some (xd_critical d, enc (SEQUENCE infos)).
Proof.
  apply (find_ext_here _ _ _ [] (other_extensions x509 d)); [constructor|]. unfold other_extensions. lacking.
Qed.

Lemma read_infos_flat x509 p r d cts : Forall entry_words cts ->
  small (SEQUENCE (chain_infos p r cts)) ->
  read_infos p (map flat (ext_multi_tcb_info (xd_critical d) (chain_infos p r cts) :: other_extensions x509 d))
  = Some (xd_critical d, map (reported r) (rev cts)).
Proof.
  intros HW HS. unfold read_infos. rewrite find_infos. cbn [obind snd fst].
  assert (HP : proper (SEQUENCE (chain_infos p r cts))).
  { apply proper_seq. unfold chain_infos. apply Forall_map, Forall_rev. eapply Forall_impl; [|exact HW].
    intros c (_ & _ & H1 & H2). apply proper_tcb_info; assumption. }
  rewrite (decode_enc _ HP HS). cbn [obind]. unfold SEQUENCE. rewrite members_flat. cbn [obind].
  rewrite read_chain by exact HW. reflexivity.
Qed.

Lemma small_infos x509 d infos : small (extensions x509 d infos) -> small (SEQUENCE infos).
Proof.
  intros H. unfold extensions in H.
  assert (H1 : small (ext_multi_tcb_info (xd_critical d) infos)) by (eapply small_kid_cons; [exact H|left; reflexivity]).
  unfold ext_multi_tcb_info, extension in H1.
  assert (H2 : small (OCTETS_OF (SEQUENCE infos))).
  { eapply small_kid_cons; [exact H1|]. apply in_or_app. right. apply in_or_app. right. left. reflexivity. }
  eapply small_kid_wrap; [exact H2|left; reflexivity].
Qed.

Lemma is_alg_self arcs : is_alg arcs (flat (alg_id arcs)) = true.
Proof. unfold is_alg, alg_id, SEQUENCE. rewrite read_one_flat. apply is_oid_self. Qed.
Lemma is_int_self v : is_int v (flat (INTEGER v)) = true.
Proof.
  unfold is_int, INTEGER. cbn [flat]. change (N.eqb 2 2) with true. cbn [andb]. apply bytes_eqb_eq. reflexivity.
Qed.

Theorem read_certificate_enc p serial issuer subject v spki r d cts g :
  let tbs := tbs_certificate p serial issuer subject v spki (extensions true d (chain_infos p r cts)) in
  proper (signed p tbs g) -> small (signed p tbs g) -> Forall entry_words cts ->
  read_certificate p (enc (signed p tbs g)) = Some (xd_critical d, map (reported r) (rev cts)).
Proof.
  intros tbs HP HS HW. unfold read_certificate, certificate_exts, signed_members. rewrite (decode_enc _ HP HS). cbn [obind].
  assert (S1 : small tbs) by (eapply small_kid_cons; [exact HS|left; reflexivity]).
  assert (S2 : small (CTX 3 [extensions true d (chain_infos p r cts)])).
  { eapply small_kid_cons; [exact S1|]. do 7 right. left. reflexivity. }
  assert (S3 : small (extensions true d (chain_infos p r cts))) by (eapply small_kid_cons; [exact S2|left; reflexivity]).
  apply small_infos in S3.
  unfold signed. change (SEQUENCE ?l) with (Cons 0x30 l). rewrite members_flat. cbn [obind map].
  rewrite is_alg_self. cbn [guard obind].
  unfold tbs, tbs_certificate. change (SEQUENCE ?l) with (Cons 0x30 l). rewrite members_flat. cbn [obind map].
  unfold CTX. change (160 + 3) with 0xA3. change (160 + 0) with 0xA0. rewrite !read_one_flat. cbn [obind].
  rewrite is_int_self, is_alg_self. cbn [andb guard obind]. unfold extensions. unfold SEQUENCE at 1. rewrite members_flat. cbn [obind].
  apply read_infos_flat; assumption.
Qed.

Theorem read_csr_enc p subject spki r d cts g :
  let info := certification_request_info subject spki (extensions false d (chain_infos p r cts)) in
  proper (signed p info g) -> small (signed p info g) -> Forall entry_words cts ->
  read_csr p (enc (signed p info g)) = Some (xd_critical d, map (reported r) (rev cts)).
Proof.
  intros info HP HS HW. unfold read_csr, csr_exts, signed_members. rewrite (decode_enc _ HP HS). cbn [obind].
  assert (S1 : small info) by (eapply small_kid_cons; [exact HS|left; reflexivity]).
  assert (S2 : small (CTX 0 [SEQUENCE [OID id_extensionRequest; SET [extensions false d (chain_infos p r cts)]]])).
  { eapply small_kid_cons; [exact S1|]. do 3 right. left. reflexivity. }
  eapply small_kid_cons in S2; [|left; reflexivity]. eapply small_kid_cons in S2; [|right; left; reflexivity].
  eapply small_kid_cons in S2; [|left; reflexivity]. apply small_infos in S2.
  unfold signed. change (SEQUENCE ?l) with (Cons 0x30 l). rewrite members_flat. cbn [obind map].
  rewrite is_alg_self. cbn [guard obind].
  unfold info, certification_request_info. change (SEQUENCE ?l) with (Cons 0x30 l). rewrite members_flat. cbn [obind map].
  rewrite is_int_self. cbn [guard obind].
  unfold CTX. change (160 + 0) with 0xA0. rewrite read_one_flat. cbn [obind]. rewrite members_flat. cbn [obind map].
  rewrite is_oid_self. cbn [guard obind]. unfold SET. rewrite read_one_flat. cbn [obind]. unfold extensions. unfold SEQUENCE at 1. rewrite members_flat. cbn [obind].
  apply read_infos_flat; assumption.
Qed.

Theorem read_content_enc p v csr si :
  let m := content_info (signed_data p v csr si) in
  proper m -> small m -> read_content (enc m) = Some (enc csr).
Proof.
  intros m HP HS. unfold read_content. rewrite (decode_enc _ HP HS). cbn [obind].
  unfold m, content_info. change (SEQUENCE ?l) with (Cons 0x30 l). rewrite members_flat. cbn [obind map]. rewrite is_oid_self. cbn [guard obind].
  unfold CTX. change (160 + 0) with 0xA0. rewrite read_one_flat. cbn [obind]. unfold signed_data, CTX. change (SEQUENCE ?l) with (Cons 0x30 l). rewrite members_flat. cbn [obind map].
  rewrite members_flat. cbn [obind map]. rewrite is_oid_self. cbn [guard obind]. change (160 + 0) with 0xA0. rewrite read_one_flat. cbn [obind].
  unfold OCTETS_OF. cbn [flat contents map concat app]. rewrite app_nil_r. reflexivity.
Qed.
Theorem read_signer_enc p v csr sid g :
  let m := content_info (signed_data p v csr (signer_info p v sid g)) in
  proper m -> small m -> sid_version (flat sid) = Some v -> read_signer p (enc m) = Some (enc (flat sid), flat (signature_octets g)).
Proof.
  intros m HP HS HV. unfold read_signer. rewrite (decode_enc _ HP HS). cbn [obind].
  unfold m, content_info. change (SEQUENCE ?l) with (Cons 0x30 l). rewrite members_flat. cbn [obind map].
  unfold CTX. change (160 + 0) with 0xA0. rewrite read_one_flat. cbn [obind]. unfold signed_data, CTX. change (SEQUENCE ?l) with (Cons 0x30 l).
  rewrite members_flat. cbn [obind map]. unfold SET. rewrite !read_one_flat. cbn [obind].
  unfold signer_info. change (SEQUENCE ?l) with (Cons 0x30 l). rewrite members_flat. cbn [obind map].
  rewrite HV. cbn [obind]. rewrite !is_int_self, !is_alg_self. reflexivity.
Qed.
Theorem read_request_enc p v subject spki r d cts g si :
  let info := certification_request_info subject spki (extensions false d (chain_infos p r cts)) in
  let m := content_info (signed_data p v (signed p info g) si) in
  proper m -> small m -> Forall entry_words cts -> proper (signed p info g) ->
  read_request p (enc m) = Some (xd_critical d, map (reported r) (rev cts)).
Proof.
  intros info m HP HS HW HP1. unfold read_request. unfold m. rewrite read_content_enc by assumption. cbn [obind].
  apply read_csr_enc; [exact HP1| |exact HW].
  unfold m, content_info, signed_data, CTX, OCTETS_OF in HS.
  eapply small_kid_cons in HS; [|right; left; reflexivity]. eapply small_kid_cons in HS; [|left; reflexivity].
  eapply small_kid_cons in HS; [|right; right; left; reflexivity]. eapply small_kid_cons in HS; [|right; left; reflexivity].
  eapply small_kid_cons in HS; [|left; reflexivity]. eapply small_kid_wrap in HS; [|left; reflexivity]. exact HS.
Qed.

(** ** The other facts *)

Lemma proper_ext_value o c v : proper (extension o c v) -> proper v.
Proof.
  unfold extension, SEQUENCE. intros H. apply proper_cons in H as [_ H]. rewrite Forall_forall in H.
  specialize (H (OCTETS_OF v)). assert (K : proper (OCTETS_OF v)).
  { apply H. apply in_or_app. right. apply in_or_app. right. left. reflexivity. }
  unfold OCTETS_OF in K. apply proper_wrap in K as (_ & _ & K). inversion K; assumption.
Qed.
Lemma small_ext_value o c v : small (extension o c v) -> small v.
Proof.
  intros H. unfold extension, SEQUENCE in H.
  assert (K : small (OCTETS_OF v)).
  { eapply small_kid_cons; [exact H|]. apply in_or_app. right. apply in_or_app. right. left. reflexivity. }
  eapply small_kid_wrap; [exact K|left; reflexivity].
Qed.
Lemma read_ext_here oid c v l1 l2 : lacks oid l1 -> lacks oid l2 ->
  proper (SEQUENCE (l1 ++ extension oid c v :: l2)) -> small (SEQUENCE (l1 ++ extension oid c v :: l2)) ->
  read_ext oid (map flat (l1 ++ extension oid c v :: l2)) = Some (c, flat v).
Proof.
  intros H1 H2 HP HS. unfold read_ext. rewrite find_ext_here by assumption. cbn [obind fst snd].
  assert (HI : In (extension oid c v) (l1 ++ extension oid c v :: l2)) by (apply in_or_app; right; left; reflexivity).
  rewrite decode_enc; [reflexivity| |].
  - apply proper_cons in HP as [_ HP]. rewrite Forall_forall in HP. eapply proper_ext_value, HP, HI.
  - eapply small_ext_value, small_kid_cons; [exact HS|exact HI].
Qed.

Section Exts.
  Variables (x509 : bool) (d : ext_data) (infos : list der).
  Let l := ext_multi_tcb_info (xd_critical d) infos :: other_extensions x509 d.
  Hypothesis HP : proper (extensions x509 d infos).
  Hypothesis HS : small (extensions x509 d infos).
  Let m := ext_multi_tcb_info (xd_critical d) infos.
  Let tail_exts := (if xd_ca d && x509 then [ext_subject_key_identifier (xd_ski d)] else [])
    ++ (if x509 then [ext_authority_key_identifier (xd_aki d)] else []) ++ opt_san (xd_san d).

  Lemma ext_at oid c v l1 l2 : l = l1 ++ extension oid c v :: l2 -> lacks oid l1 -> lacks oid l2 ->
    read_ext oid (map flat l) = Some (c, flat v).
  Proof.
    intros E H1 H2. rewrite E. apply read_ext_here; try assumption; rewrite <- E; [exact HP|exact HS].
  Qed.
  Lemma read_ueid_ok : read_ueid (map flat l) = Some (xd_critical d, xd_ueid d).
  Proof.
    unfold read_ueid. rewrite (ext_at id_dice_Ueid (xd_critical d) (SEQUENCE [OCTETS (xd_ueid d)]) [m]
      (ext_basic_constraints (xd_ca d) :: ext_key_usage (xd_ca d) :: ext_extended_key_usage (xd_ca d) :: tail_exts) eq_refl);
      [|unfold m; lacking|].
    - cbn [obind fst snd]. unfold SEQUENCE. rewrite read_one_flat. cbn [obind]. unfold OCTETS. rewrite contents_flat. reflexivity.
    - change (lacks id_dice_Ueid ([ext_basic_constraints (xd_ca d); ext_key_usage (xd_ca d); ext_extended_key_usage (xd_ca d)] ++ tail_exts)).
      unfold tail_exts. lacking.
  Qed.
  Lemma read_ca_ok : read_ca (map flat l) = Some (xd_ca d).
  Proof.
    unfold read_ca. rewrite (ext_at id_ce_basicConstraints true (SEQUENCE (if xd_ca d then [TRUE] else []))
      [m; ext_ueid (xd_critical d) (xd_ueid d)] (ext_key_usage (xd_ca d) :: ext_extended_key_usage (xd_ca d) :: tail_exts) eq_refl);
      [|unfold m; lacking|].
    - cbn [obind fst snd critical guard]. unfold SEQUENCE. rewrite members_flat. cbn [obind]. destruct (xd_ca d); reflexivity.
    - change (lacks id_ce_basicConstraints ([ext_key_usage (xd_ca d); ext_extended_key_usage (xd_ca d)] ++ tail_exts)).
      unfold tail_exts. lacking.
  Qed.
  Lemma read_usage_ok : read_usage (map flat l) = Some (if xd_ca d then [2; 0x84] else [7; 0x80]).
  Proof.
    unfold read_usage. rewrite (ext_at id_ce_keyUsage true (Prim 0x03 (if xd_ca d then [2; 0x84] else [7; 0x80]))
      [m; ext_ueid (xd_critical d) (xd_ueid d); ext_basic_constraints (xd_ca d)] (ext_extended_key_usage (xd_ca d) :: tail_exts) eq_refl);
      [|unfold m; lacking|].
    - cbn [obind fst snd critical guard]. rewrite contents_flat. reflexivity.
    - change (lacks id_ce_keyUsage ([ext_extended_key_usage (xd_ca d)] ++ tail_exts)). unfold tail_exts. lacking.
  Qed.
  Lemma read_purpose_ok :
    read_purpose (map flat l) = Some (oid_content (if xd_ca d then id_dice_kp_eca else id_dice_kp_attestLoc)).
  Proof.
    unfold read_purpose. rewrite (ext_at id_ce_extKeyUsage true
        (SEQUENCE [OID (if xd_ca d then id_dice_kp_eca else id_dice_kp_attestLoc)])
        [m; ext_ueid (xd_critical d) (xd_ueid d); ext_basic_constraints (xd_ca d); ext_key_usage (xd_ca d)] tail_exts eq_refl);
      [|unfold m; lacking|unfold tail_exts; lacking].
    cbn [obind fst snd critical guard]. unfold SEQUENCE. rewrite read_one_flat. cbn [obind]. unfold OID. rewrite contents_flat. reflexivity.
  Qed.
  Let first_exts := [m; ext_ueid (xd_critical d) (xd_ueid d); ext_basic_constraints (xd_ca d); ext_key_usage (xd_ca d);
    ext_extended_key_usage (xd_ca d)].
  Lemma read_authority_ok : x509 = true -> read_authority (map flat l) = Some (xd_aki d).
  Proof.
    intros HX. unfold read_authority.
    assert (EL : l = (first_exts ++ if xd_ca d && x509 then [ext_subject_key_identifier (xd_ski d)] else []) ++
                   extension id_ce_authorityKeyIdentifier false (SEQUENCE [CTX_PRIM 0 (xd_aki d)]) :: opt_san (xd_san d)).
    { unfold l, first_exts, other_extensions, m. rewrite HX. cbn [app]. rewrite andb_true_r. destruct (xd_ca d); reflexivity. }
    rewrite (ext_at _ _ _ _ _ EL); [|unfold first_exts, m; lacking|lacking].
    cbn [obind fst snd]. unfold SEQUENCE. rewrite read_one_flat. cbn [obind]. unfold CTX_PRIM. apply contents_flat.
  Qed.
  Lemma read_key_id_ok : read_key_id (map flat l) = if xd_ca d && x509 then Some (xd_ski d) else None.
  Proof.
    unfold read_key_id. destruct (xd_ca d && x509) eqn:EX.
    - assert (EL : l = first_exts ++ extension id_ce_subjectKeyIdentifier false (OCTETS (xd_ski d)) ::
                     ((if x509 then [ext_authority_key_identifier (xd_aki d)] else []) ++ opt_san (xd_san d))).
      { unfold l, first_exts, other_extensions, m. rewrite EX. reflexivity. }
      rewrite (ext_at _ _ _ _ _ EL); [|unfold first_exts, m; lacking|lacking].
      cbn [obind fst snd]. unfold OCTETS. apply contents_flat.
    - unfold read_ext. rewrite find_ext_none; [reflexivity|].
      change l with ([m] ++ other_extensions x509 d). unfold m, other_extensions. rewrite EX. lacking.
  Qed.
End Exts.

Definition key_octets (p : profile) (k : pubkey) : bytes :=
  match k with
  | PkEcdsa256 x y => to_buf 32 x ++ to_buf 32 y
  | PkEcdsa384 x y => to_buf 48 x ++ to_buf 48 y
  | PkMldsa b => to_buf (N.to_nat mldsa87_pk_size) b
  end.
Lemma read_key_ok p k : key_of p k -> read_key p (flat (subject_public_key_info k)) = Some (key_octets p k).
Proof.
  intros H. unfold read_key.
  assert (L : forall n a, length (to_buf n a) = n) by (intros; apply length_to_buf).
  destruct p, k; try destruct H; unfold subject_public_key_info, SEQUENCE, BITS, alg_id.
  all: rewrite members_flat; cbn [obind map]; change (SEQUENCE ?l) with (Cons 0x30 l); rewrite members_flat; cbn [obind map];
    rewrite contents_flat; cbn [obind]; rewrite !is_oid_self; cbn [andb]; rewrite ?app_length, !L.
  - reflexivity.
  - reflexivity.
  - change (N.to_nat mldsa87_pk_size) with 2592%nat. rewrite Nat.eqb_refl. reflexivity.
Qed.
Lemma read_name_ok cn sn : read_name (flat (subject_name cn sn)) = Some (cn, sn).
Proof.
  unfold read_name, subject_name, SEQUENCE. rewrite members_flat. cbn [obind map]. unfold read_rdn, rdn, SET, SEQUENCE, PRINTABLE.
  rewrite !read_one_flat. cbn [obind]. rewrite !members_flat. cbn [obind map]. rewrite !is_oid_self. cbn [guard obind].
  rewrite !contents_flat. reflexivity.
Qed.

Definition facts_of (p : profile) (cn sn : bytes) (k : pubkey) (d : ext_data) : facts :=
  {| fa_name := (cn, sn); fa_key := key_octets p k; fa_ueid := xd_ueid d; fa_ca := xd_ca d;
     fa_usage := if xd_ca d then [2; 0x84] else [7; 0x80];
     fa_purpose := oid_content (if xd_ca d then id_dice_kp_eca else id_dice_kp_attestLoc) |}.
Lemma read_facts_ok x509 p cn sn k d infos : key_of p k ->
  proper (extensions x509 d infos) -> small (extensions x509 d infos) ->
  read_facts p (flat (subject_name cn sn)) (flat (subject_public_key_info k))
    (map flat (ext_multi_tcb_info (xd_critical d) infos :: other_extensions x509 d)) = Some (facts_of p cn sn k d).
Proof.
  intros HK HP HS. unfold read_facts. rewrite read_name_ok. cbn [obind]. rewrite (read_key_ok _ _ HK). cbn [obind].
  rewrite read_ueid_ok, read_ca_ok, read_usage_ok, read_purpose_ok by assumption. reflexivity.
Qed.

Section Facts.
  Variables (p : profile) (serial : N) (issuer subject : der) (v : cert_validity) (spki : der) (d : ext_data) (infos : list der).
  Variable g : signature.
  Let tbs := tbs_certificate p serial issuer subject v spki (extensions true d infos).
  Let b := enc (signed p tbs g).
  Hypothesis HP : proper (signed p tbs g).
  Hypothesis HS : small (signed p tbs g).

  Lemma certificate_members : signed_members p b = Some (map flat
    [ CTX 0 [INTEGER 2]; INTEGER serial; alg_id (sig_alg_oid p); issuer;
      SEQUENCE [GENERALIZED_TIME (cv_not_before v); GENERALIZED_TIME (cv_not_after v)];
      subject; spki; CTX 3 [extensions true d infos] ]).
  Proof.
    unfold signed_members, b. rewrite (decode_enc _ HP HS). cbn [obind]. unfold signed. change (SEQUENCE ?l) with (Cons 0x30 l).
    rewrite members_flat. cbn [obind map]. rewrite is_alg_self. cbn [guard obind].
    unfold tbs, tbs_certificate. unfold SEQUENCE at 1. rewrite members_flat. reflexivity.
  Qed.
  Lemma certificate_exts_ok : certificate_exts p b = Some (map flat (ext_multi_tcb_info (xd_critical d) infos :: other_extensions true d)).
  Proof.
    unfold certificate_exts. rewrite certificate_members. cbn [obind map]. unfold CTX. change (160 + 3) with 0xA3. change (160 + 0) with 0xA0.
    rewrite !read_one_flat. cbn [obind]. rewrite is_int_self, is_alg_self. cbn [andb guard obind]. unfold extensions, SEQUENCE. apply members_flat.
  Qed.
  Lemma certificate_exts_fit : proper (extensions true d infos) /\ small (extensions true d infos).
  Proof.
    split.
    - apply proper_cons in HP as [_ K]. apply Forall_inv in K. unfold tbs, tbs_certificate, SEQUENCE in K. apply proper_cons in K as [_ K].
      do 7 apply Forall_inv_tail in K. apply Forall_inv in K. unfold CTX in K. apply proper_cons in K as [_ K]. apply Forall_inv in K. exact K.
    - assert (S1 : small tbs) by (eapply small_kid_cons; [exact HS|left; reflexivity]).
      assert (S2 : small (CTX 3 [extensions true d infos])).
      { eapply small_kid_cons; [exact S1|]. do 7 right. left. reflexivity. }
      eapply small_kid_cons; [exact S2|left; reflexivity].
  Qed.
  Theorem certificate_facts_ok cn sn k : subject = subject_name cn sn -> spki = subject_public_key_info k -> key_of p k ->
    certificate_facts p b = Some (facts_of p cn sn k d).
  Proof.
    intros HN HQ HK. unfold certificate_facts. rewrite certificate_exts_ok, certificate_members. cbn [obind map].
    rewrite HN, HQ. destruct certificate_exts_fit. apply read_facts_ok; assumption.
  Qed.
  Theorem read_issue_ok : read_issue p b = Some {| is_serial := Z.of_N serial; is_issuer := enc (flat issuer);
      is_validity := (cv_not_before v, cv_not_after v); is_authority := xd_aki d;
      is_key_id := if xd_ca d then Some (xd_ski d) else None |}.
  Proof.
    destruct certificate_exts_fit as [P1 S1].
    pose proof (read_authority_ok true d infos P1 S1 eq_refl) as EA. pose proof (read_key_id_ok true d infos P1 S1) as EK.
    unfold read_issue. rewrite certificate_exts_ok.
    set (ex := map flat (ext_multi_tcb_info _ _ :: _)) in *. rewrite certificate_members. cbn [obind map].
    unfold INTEGER, SEQUENCE. rewrite contents_flat, members_flat. cbn [obind map]. unfold GENERALIZED_TIME.
    rewrite !contents_flat. cbn [obind]. rewrite EA, EK. cbn [obind]. rewrite signed_uint, andb_true_r. reflexivity.
  Qed.
End Facts.

Section RequestFacts.
  Variables (p : profile) (cn sn : bytes) (k : pubkey) (d : ext_data) (infos : list der) (g : signature).
  Let info := certification_request_info (subject_name cn sn) (subject_public_key_info k) (extensions false d infos).
  Let b := enc (signed p info g).
  Hypothesis HK : key_of p k.
  Hypothesis HP : proper (signed p info g).
  Hypothesis HS : small (signed p info g).
  Lemma request_exts_fit : proper (extensions false d infos) /\ small (extensions false d infos).
  Proof.
    split.
    - apply proper_cons in HP as [_ K]. apply Forall_inv in K. unfold info, certification_request_info, SEQUENCE in K.
      apply proper_cons in K as [_ K]. do 3 apply Forall_inv_tail in K. apply Forall_inv in K. unfold CTX in K.
      apply proper_cons in K as [_ K]. apply Forall_inv in K. apply proper_cons in K as [_ K]. apply Forall_inv_tail, Forall_inv in K.
      unfold SET in K. apply proper_cons in K as [_ K]. apply Forall_inv in K. exact K.
    - assert (S1 : small info) by (eapply small_kid_cons; [exact HS|left; reflexivity]).
      assert (S2 : small (CTX 0 [SEQUENCE [OID id_extensionRequest; SET [extensions false d infos]]])).
      { eapply small_kid_cons; [exact S1|]. do 3 right. left. reflexivity. }
      eapply small_kid_cons in S2; [|left; reflexivity]. eapply small_kid_cons in S2; [|right; left; reflexivity].
      eapply small_kid_cons in S2; [|left; reflexivity]. exact S2.
  Qed.
  Theorem csr_facts_ok : csr_facts p b = Some (facts_of p cn sn k d).
  Proof.
    assert (EM : signed_members p b = Some (map flat [INTEGER 0; subject_name cn sn; subject_public_key_info k;
                   CTX 0 [SEQUENCE [OID id_extensionRequest; SET [extensions false d infos]]]])).
    { unfold signed_members, b. rewrite (decode_enc _ HP HS). cbn [obind]. unfold signed. change (SEQUENCE ?l) with (Cons 0x30 l).
      rewrite members_flat. cbn [obind map]. rewrite is_alg_self. cbn [guard obind].
      unfold info, certification_request_info. unfold SEQUENCE at 1. rewrite members_flat. reflexivity. }
    unfold csr_facts, csr_exts. rewrite EM. cbn [obind map]. rewrite is_int_self. cbn [guard obind]. unfold CTX at 1. change (160 + 0) with 0xA0.
    rewrite read_one_flat. cbn [obind]. unfold SEQUENCE at 1. rewrite members_flat. cbn [obind map]. rewrite is_oid_self. cbn [guard obind].
    unfold SET. rewrite read_one_flat. cbn [obind]. unfold extensions, SEQUENCE. rewrite members_flat. cbn [obind].
    destruct request_exts_fit as [P1 S1]. apply (read_facts_ok false p cn sn k d infos HK P1 S1).
  Qed.
End RequestFacts.
