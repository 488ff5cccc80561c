(** X509Facts.v -- the certificates and requests in the responses of CertifyKey and
    DeriveContext, for a DPE that uses the modelled writer: one lemma for each of the
    two kinds of output, from which Props_X509.v takes its theorems. *)
From Verif Require Import Base Errors Types StateOps Env Wire Instance Commands Lib Spec Exec Effects Forest History Contract Codec Steps Reach CommandSpecs
  Responses Execute Walk Measure Der DerProofs X509 X509Cert X509Run X509Spec X509Proper X509Gen X509Out X509Read
  X509ReadOk X509Made X509Total X509Sane X509Cmd.
Open Scope N_scope.
Open Scope dpe_scope.

(** ** Vocabulary *)

(** Where the certificate or request starts in a response. *)
Definition output_start (cmd : command) : nat :=
  match cmd with
  | CmdCertifyKey (CertifyP256 _) => 96
  | CmdCertifyKey (CertifyP384 _) => 128
  | CmdCertifyKey (CertifyMldsa87 _) => N.to_nat 2624
  | _ => 80
  end.
(** The output of a response of [n] bytes. *)
Definition output (cmd : command) (n : N) (out : bytes) : bytes :=
  slice out (output_start cmd) (N.to_nat n - output_start cmd).
(** Commands for an X.509 certificate: CertifyKey with format 0, and DeriveContext
    with EXPORT_CDI (bit 23) and without RECURSIVE (bit 24). *)
Definition asks_certificate (cmd : command) : Prop :=
  match cmd with
  | CmdCertifyKey (CertifyP256 c) | CmdCertifyKey (CertifyP384 c) | CmdCertifyKey (CertifyMldsa87 c) => ck_format c = 0
  | CmdDeriveContext d => N.testbit (dc_flags d) 23 = true /\ N.testbit (dc_flags d) 24 = false
  | _ => False
  end.
(** Commands for a signed request: CertifyKey with another format. *)
Definition asks_request (cmd : command) : Prop :=
  match cmd with
  | CmdCertifyKey (CertifyP256 c) | CmdCertifyKey (CertifyP384 c) | CmdCertifyKey (CertifyMldsa87 c) => ck_format c <> 0
  | _ => False
  end.
(** The key goes to the holder of an exported CDI, not to a context. *)
Definition exports (cmd : command) : bool := match cmd with CmdDeriveContext _ => true | _ => false end.
(** The UEID a certificate may carry: the label of CertifyKey, the platform's
    otherwise. *)
Definition ueid_for {P} (po : platform_ops P) (cmd : command) (u : bytes) : Prop :=
  match cmd with
  | CmdCertifyKey (CertifyP256 c) | CmdCertifyKey (CertifyP384 c) | CmdCertifyKey (CertifyMldsa87 c) => u = ck_label c
  | _ => exists p v p', po_ueid po p = (inl v, p') /\ ueid_size v <= 48 /\
           u = firstn (N.to_nat (ueid_size v)) (to_buf 48 (ueid_buf v))
  end.
Section Facts.
  Variable cf : config.
  Hypothesis Hcf : config_ok cf.
  Context {C P : Type}.
  Variable co : crypto_ops C.
  Variable po : platform_ops P.
  Notation world := (world C P).
  Notation exec := (exec_command cf C P co po (x509_gen cf C P co po)).

  (** The octets that identify a key: an uncompressed point, or the key itself. *)
  Definition point (p : profile) (key : bytes) : bytes := match p with Mldsa87 => key | _ => 0x04 :: key end.
  Lemma key_digest_hashed pk d : key_of (prof cf) pk -> key_digest (P := P) co pk d ->
    exists chunks, hash_of co chunks (digest_bytes d) /\ concat chunks = point (prof cf) (key_octets (prof cf) pk).
  Proof.
    intros K (w & w1 & H). unfold hash_pubkey in H.
    assert (Q : forall l, hash_all C P co l w = (Ok d, w1) -> hash_of co l (digest_bytes d)).
    { intros l HA. apply (hashed_hash_of C P co). exists w, d, w1. auto. }
    destruct pk as [x y|x y|b]; cbn [ecdsa_pub key_octets] in *; destruct (prof cf); try destruct K; cbn [point];
      apply Q in H; eexists; (split; [exact H|]); cbn [concat app]; rewrite app_nil_r; reflexivity.
  Qed.

  Lemma output_tail cmd n (out out1 : bytes) sz : n = N.of_nat (output_start cmd) + sz ->
    skipn (output_start cmd) out = skipn (output_start cmd) out1 ->
    output cmd n out = firstn (N.to_nat sz) (skipn (output_start cmd) out1).
  Proof. intros -> H. unfold output, slice. rewrite H. f_equal. lia. Qed.

  Lemma start_certify cmd : output_start (CmdCertifyKey cmd) = certify_hdr_size (certify_profile cmd).
  Proof. destruct cmd; reflexivity. Qed.

  Lemma exec_length cmd loc w n w' : wf cf (w_st w) -> command_wf cf cmd -> exec cmd loc w = (Ok n, w') ->
    length (w_out w') = length (w_out w).
  Proof. intros W HC H. exact (proj1 (command_fine cf Hcf C P co po _ (x509_sane cf co po) _ _ _ _ _ W HC H)). Qed.

  (** A certificate in a response was made by [create_cert]. *)
  Lemma certificate_command cmd loc w n w' h :
    wf cf (w_st w) -> command_wf cf cmd -> exec cmd loc w = (Ok n, w') -> asks_certificate cmd -> presents cmd h ->
    exists k a cr w0 w1, create_cert cf C P co po k a (output_start cmd) w0 = (Ok cr, w1) /\
      kind_csr k = false /\ kind_exported k = exports cmd /\ ca_handle a = h /\ ca_locality a = loc /\
      ca_critical a = N.testbit (st_flags (w_st w)) 15 /\ ueid_for po cmd (ca_ueid a) /\ all_bytes (ca_ueid a) /\
      w_st w0 = w_st w /\ w_out w0 = w_out w /\ n = N.of_nat (output_start cmd) + cr_size cr /\
      output cmd n (w_out w') = firstn (N.to_nat (cr_size cr)) (skipn (output_start cmd) (w_out w1)) /\
      slice (w_out w') (output_start cmd - 4) 4 = le_bytes 4 (cr_size cr) /\
      if exports cmd then slice (w_out w') 44 32 = to_buf 32 (cr_exported cr)
      else slice (w_out w') 28 (output_start cmd - 32) = key_octets (prof cf) (cr_pubkey cr).
  Proof.
    intros W HC H HA HP. destruct cmd as [|f|d|cmd|sg|hh f|hh|o sz|u]; try destruct HA; cbn [exports].
    - cbn [presents] in HP. subst h. apply (export_created cf Hcf co po) in H as (u & ue & cr & w0 & w1 & (Hu & p & p' & Hp) & Hs & Ho & Hc & Hn & Ht & Hz & Hx); [|assumption..].
      exists KindExported, (export_args cf d loc (w_st w) ue), cr, w0, w1. change (output_start (CmdDeriveContext d)) with exported_hdr_size.
      assert (Hb : all_bytes ue) by (eapply ueid_bytes; exact Hu).
      split; [exact Hc|]. cbn [kind_csr kind_exported export_args ca_handle ca_locality ca_critical ca_ueid].
      repeat (split; [first [reflexivity|assumption|apply contains_bit]|]).
      split.
      { exists p, u, p'. split; [exact Hp|]. unfold ueid_get in Hu. change max_ueid_size with 48%nat in Hu.
        destruct (N.leb_spec (ueid_size u) (N.of_nat 48)) as [L|L]; [|discriminate]. split; [exact L|]. congruence. }
      repeat (split; [assumption|]). split; [|split; assumption].
      apply (output_tail (CmdDeriveContext d)); assumption.
    - apply (certify_created cf co po) in H as (cr & w1 & pk & Hc & Hn & Ht & Hpk & Hz & Hk); [|assumption..]. rewrite <- start_certify in *.
      assert (EF : ck_format (certify_inner cmd) = 0) by (destruct cmd; exact HA). rewrite EF in Hc. cbn [N.eqb] in Hc.
      exists KindX509, (certify_args cf (certify_inner cmd) loc (w_st w)), cr, w, w1.
      split; [exact Hc|]. cbn [kind_csr kind_exported certify_args ca_handle ca_locality ca_critical ca_ueid].
      split; [reflexivity|]. split; [reflexivity|]. split; [destruct cmd; symmetry; exact HP|]. split; [reflexivity|].
      split; [apply contains_bit|]. split; [destruct cmd; reflexivity|].
      split; [destruct cmd; cbn [command_wf certify_wf] in HC; cbn [certify_inner]; apply HC|].
      repeat (split; [first [reflexivity|assumption]|]). split; [apply (output_tail (CmdCertifyKey cmd)); assumption|].
      split; [exact Hz|]. rewrite Hk. destruct cmd; cbn [certify_profile pubkey_bytes] in Hpk; destruct (cr_pubkey cr); try discriminate; cbn [key_octets]; congruence.
  Qed.

  Lemma request_command cmd loc w n w' h :
    wf cf (w_st w) -> command_wf cf cmd -> exec cmd loc w = (Ok n, w') -> asks_request cmd -> presents cmd h ->
    exists a cr w1, create_cert cf C P co po KindCsr a (output_start cmd) w = (Ok cr, w1) /\
      ca_handle a = h /\ ca_locality a = loc /\
      ca_critical a = N.testbit (st_flags (w_st w)) 15 /\ ueid_for po cmd (ca_ueid a) /\ all_bytes (ca_ueid a) /\
      ca_cdi_label a = str_DPE /\ ueid_for po cmd (ca_key_label a) /\ ca_context a = key_context (prof cf) /\
      n = N.of_nat (output_start cmd) + cr_size cr /\
      output cmd n (w_out w') = firstn (N.to_nat (cr_size cr)) (skipn (output_start cmd) (w_out w1)) /\
      slice (w_out w') (output_start cmd - 4) 4 = le_bytes 4 (cr_size cr) /\
      slice (w_out w') 28 (output_start cmd - 32) = key_octets (prof cf) (cr_pubkey cr).
  Proof.
    intros W HC H HA HP. destruct cmd as [|f|d|cmd|sg|hh f|hh|o sz|u]; try destruct HA.
    apply (certify_created cf co po) in H as (cr & w1 & pk & Hc & Hn & Ht & Hpk & Hz & Hk); [|assumption..]. rewrite <- start_certify in *.
    assert (EF : N.eqb (ck_format (certify_inner cmd)) 0 = false) by (apply N.eqb_neq; destruct cmd; exact HA). rewrite EF in Hc.
    exists (certify_args cf (certify_inner cmd) loc (w_st w)), cr, w1.
    split; [exact Hc|]. cbn [kind_csr kind_exported certify_args ca_handle ca_locality ca_critical ca_ueid ca_cdi_label ca_key_label ca_context].
    split; [destruct cmd; symmetry; exact HP|]. split; [reflexivity|].
    split; [apply contains_bit|]. split; [destruct cmd; reflexivity|].
    split; [destruct cmd; cbn [command_wf certify_wf] in HC; cbn [certify_inner]; apply HC|].
    split; [reflexivity|]. split; [destruct cmd; reflexivity|]. split; [reflexivity|].
    split; [assumption|]. split; [apply (output_tail (CmdCertifyKey cmd)); assumption|].
    split; [exact Hz|]. rewrite Hk. destruct cmd; cbn [certify_profile pubkey_bytes] in Hpk; destruct (cr_pubkey cr); try discriminate; cbn [key_octets]; congruence.
  Qed.
End Facts.
