(** X509Proper.v -- the ASN.1 values of X509Spec.v are values the strict decoder
    of Der.v accepts. *)
From Verif Require Import Base Errors Types StateOps Env Lib Spec Der DerProofs X509Spec.
Open Scope N_scope.

Lemma base128_bytes f : forall n l, all_bytes (base128 f n l).
Proof.
  induction f as [|f IH]; intros n l; cbn [base128]; [constructor|]. apply Forall_app. split.
  - destruct (N.ltb n 128); [constructor|apply IH].
  - constructor; [|constructor]. assert (n mod 128 < 128) by (apply N.mod_upper_bound; discriminate). unfold is_byte. destruct l; lia.
Qed.
Lemma oid_bytes arcs : all_bytes (oid_content arcs).
Proof.
  destruct arcs as [|a [|b r]]; try constructor. cbn [oid_content]. apply Forall_app. split; [apply base128_bytes|].
  induction r as [|x r IH]; cbn [flat_map]; [constructor|]. apply Forall_app. split; [apply base128_bytes|exact IH].
Qed.

Ltac ptag := split; [reflexivity|split; [reflexivity|discriminate]].
Lemma proper_prim tag c : prim_tag tag -> all_bytes c -> proper (Prim tag c).
Proof. intros; split; assumption. Qed.
Lemma proper_seq l : Forall proper l -> proper (SEQUENCE l).
Proof. intros H. apply proper_cons. split; [ptag|exact H]. Qed.
Lemma proper_set l : Forall proper l -> proper (SET l).
Proof. intros H. apply proper_cons. split; [ptag|exact H]. Qed.
Lemma proper_ctx n l : n < 31 -> Forall proper l -> proper (CTX n l).
Proof.
  intros H HF. apply proper_cons. split; [|exact HF].
  assert (forallb (fun n => (0xA0 + n <? 256) && N.testbit (0xA0 + n) 5 && negb (N.modulo (0xA0 + n) 32 =? 31))
            (map N.of_nat (seq 0 31)) = true) as HA by reflexivity.
  rewrite forallb_forall in HA. specialize (HA n). 
  assert (In n (map N.of_nat (seq 0 31))) as HI.
  { apply in_map_iff. exists (N.to_nat n). split; [apply N2Nat.id|]. apply in_seq. lia. }
  specialize (HA HI). apply andb_prop in HA as [HA H3]. apply andb_prop in HA as [H1 H2].
  split; [apply N.ltb_lt, H1|]. split; [exact H2|]. apply negb_true_iff in H3. apply N.eqb_neq, H3.
Qed.
Lemma proper_ctx_prim n b : n < 31 -> all_bytes b -> proper (CTX_PRIM n b).
Proof.
  intros H HF. apply proper_prim; [|exact HF].
  assert (forallb (fun n => (0x80 + n <? 256) && negb (N.testbit (0x80 + n) 5) && negb (N.modulo (0x80 + n) 32 =? 31))
            (map N.of_nat (seq 0 31)) = true) as HA by reflexivity.
  rewrite forallb_forall in HA. specialize (HA n). 
  assert (In n (map N.of_nat (seq 0 31))) as HI.
  { apply in_map_iff. exists (N.to_nat n). split; [apply N2Nat.id|]. apply in_seq. lia. }
  specialize (HA HI). apply andb_prop in HA as [HA H3]. apply andb_prop in HA as [H1 H2].
  split; [apply N.ltb_lt, H1|]. split; [apply negb_true_iff, H2|]. apply negb_true_iff in H3. apply N.eqb_neq, H3.
Qed.
Lemma proper_oid arcs : proper (OID arcs).
Proof. apply proper_prim; [ptag|apply oid_bytes]. Qed.
Lemma der_uint_bytes v : all_bytes (der_uint v).
Proof. apply der_uint_correct. Qed.
Lemma proper_integer v : proper (INTEGER v).
Proof. apply proper_prim; [ptag|apply der_uint_bytes]. Qed.
Lemma proper_octets b : all_bytes b -> proper (OCTETS b).
Proof. apply proper_prim; ptag. Qed.
Lemma proper_true : proper TRUE.
Proof. apply proper_prim; [ptag|]. constructor; [reflexivity|constructor]. Qed.
Lemma proper_printable b : all_bytes b -> proper (PRINTABLE b).
Proof. apply proper_prim; ptag. Qed.
Lemma proper_utf8 b : all_bytes b -> proper (UTF8 b).
Proof. apply proper_prim; ptag. Qed.
Lemma proper_time b : all_bytes b -> proper (GENERALIZED_TIME b).
Proof. apply proper_prim; ptag. Qed.
Lemma proper_bits b : all_bytes b -> proper (BITS b).
Proof. intros H. apply proper_prim; [ptag|]. constructor; [reflexivity|exact H]. Qed.
Lemma proper_bits_of d : proper d -> proper (BITS_OF d).
Proof.
  intros H. apply proper_wrap. split; [ptag|]. split; [constructor; [reflexivity|constructor]|]. constructor; [exact H|constructor].
Qed.
Lemma proper_octets_of d : proper d -> proper (OCTETS_OF d).
Proof. intros H. apply proper_wrap. split; [ptag|]. split; [constructor|]. constructor; [exact H|constructor]. Qed.

Ltac fall := repeat match goal with
  | |- Forall _ (_ :: _) => constructor
  | |- Forall _ [] => constructor
  | |- Forall _ (_ ++ _) => apply Forall_app; split
  | |- Forall _ (if ?b then _ else _) => destruct b
  end.
Ltac prop1 := lazymatch goal with
  | |- proper (SEQUENCE _) => apply proper_seq
  | |- proper (SET _) => apply proper_set
  | |- proper (CTX _ _) => apply proper_ctx; [reflexivity|]
  | |- proper (CTX_PRIM _ _) => apply proper_ctx_prim; [reflexivity|]
  | |- proper (OID _) => apply proper_oid
  | |- proper (INTEGER _) => apply proper_integer
  | |- proper (OCTETS_OF _) => apply proper_octets_of
  | |- proper (BITS_OF _) => apply proper_bits_of
  | |- proper (OCTETS _) => apply proper_octets
  | |- proper TRUE => apply proper_true
  | |- proper (PRINTABLE _) => apply proper_printable
  | |- proper (UTF8 _) => apply proper_utf8
  | |- proper (GENERALIZED_TIME _) => apply proper_time
  | |- proper (BITS _) => apply proper_bits
  | |- all_bytes (der_uint _) => apply der_uint_bytes
  | |- all_bytes (to_buf _ _) => apply all_bytes_to_buf
  | _ => assumption
  end.
Ltac prop := repeat first [progress fall | prop1].

Lemma proper_alg o : proper (alg_id o).
Proof. unfold alg_id. prop. Qed.
Lemma proper_spki k : proper (subject_public_key_info k).
Proof.
  destruct k; cbn [subject_public_key_info]; prop; try apply proper_alg.
  all: constructor; [exact eq_refl|]; apply Forall_app; split; apply all_bytes_to_buf.
Qed.
Lemma proper_sig_bits g : proper (signature_bits g).
Proof. destruct g; cbn [signature_bits]; unfold ecdsa_sig_value; prop. Qed.
Lemma proper_sig_octets g : proper (signature_octets g).
Proof. destruct g; cbn [signature_octets]; unfold ecdsa_sig_value; prop. Qed.
Lemma proper_rdn o d : proper d -> proper (rdn o d).
Proof. intros H. unfold rdn. prop. Qed.
Lemma proper_subject_name cn sn : all_bytes cn -> all_bytes sn -> proper (subject_name cn sn).
Proof. intros H1 H2. unfold subject_name. prop; apply proper_rdn; prop. Qed.
Lemma proper_fwid p d : all_bytes d -> proper (fwid p d).
Proof. intros H. unfold fwid. prop. Qed.
Lemma be_bytes_bytes n v : all_bytes (be_bytes n v).
Proof. apply all_bytes_rev, all_bytes_le_bytes. Qed.
Lemma proper_tcb_info p r t : all_bytes (tci_current t) -> all_bytes (tci_cumulative t) -> proper (tcb_info p r t).
Proof.
  intros H1 H2. unfold tcb_info, tcb_info_with.
  prop; first [apply be_bytes_bytes|apply all_bytes_le_bytes|apply proper_fwid; assumption].
Qed.
Lemma proper_extension o c d : proper d -> proper (extension o c d).
Proof. intros H. unfold extension. prop. Qed.

Definition ext_bytes (d : ext_data) : Prop :=
  all_bytes (xd_ueid d) /\ all_bytes (xd_ski d) /\ all_bytes (xd_aki d) /\
  match xd_san d with Some o => all_bytes (on_oid o) /\ all_bytes (on_value o) | None => True end.

Lemma proper_extensions x d infos : ext_bytes d -> Forall proper infos -> proper (extensions x d infos).
Proof.
  intros (H1 & H2 & H3 & H4) HF. unfold extensions, other_extensions. apply proper_seq. constructor.
  { apply proper_extension. prop. }
  unfold ext_ueid, ext_basic_constraints, ext_key_usage, ext_extended_key_usage, ext_subject_key_identifier,
    ext_authority_key_identifier, opt_san, ext_subject_alt_name.
  fall; try (apply proper_extension; prop; fail).
  - apply proper_extension. apply proper_prim; [ptag|]. destruct (xd_ca d); repeat constructor.
  - destruct (xd_san d) as [o|]; [|constructor]. destruct H4 as [H4 H5]. constructor; [|constructor].
    apply proper_extension. prop. apply proper_prim; [ptag|assumption].
Qed.
Definition validity_bytes (v : cert_validity) : Prop := all_bytes (cv_not_before v) /\ all_bytes (cv_not_after v).
Lemma proper_tbs p serial issuer subject v spki exts :
  proper issuer -> proper subject -> validity_bytes v -> proper spki -> proper exts ->
  proper (tbs_certificate p serial issuer subject v spki exts).
Proof. intros H1 H2 [H3 H4] H5 H6. unfold tbs_certificate. prop; apply proper_alg. Qed.
Lemma proper_signed p d g : proper d -> proper (signed p d g).
Proof. intros H. unfold signed. prop; [apply proper_alg|apply proper_sig_bits]. Qed.
Lemma proper_cri subject spki exts : proper subject -> proper spki -> proper exts ->
  proper (certification_request_info subject spki exts).
Proof. intros H1 H2 H3. unfold certification_request_info. prop. Qed.
Lemma proper_signer_info p v sid g : proper sid -> proper (signer_info p v sid g).
Proof. intros H. unfold signer_info. prop; [apply proper_alg..|apply proper_sig_octets]. Qed.
Lemma proper_signed_data p v csr si : proper csr -> proper si -> proper (signed_data p v csr si).
Proof. intros H1 H2. unfold signed_data. prop; apply proper_alg. Qed.
Lemma proper_content_info d : proper d -> proper (content_info d).
Proof. intros H. unfold content_info. prop. Qed.
