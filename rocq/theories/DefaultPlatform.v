(** DefaultPlatform.v -- the reference platform (platform/src/default.rs), used by the
    simulator and the tools.  The test certificate of each profile is a build artifact;
    what the code reads from it -- its DER bytes ([cert_chain], lines 28-35) and the
    issuer name, serial number and subject key identifier that the external x509_cert
    crate finds in it (lines 47-83) -- are parameters here.  The platform has no state. *)
From Verif Require Import Base Errors Types Env X509Cert.
Open Scope N_scope.

Section Default.
  Variables chain issuer serial ski : bytes.

  (** default.rs:40-45. *)
  Definition default_auto_init_locality : N := 0.
  Definition default_vendor_id : N := 0.
  Definition default_vendor_sku : N := 0.
  (** "20230227000000Z" and "99991231235959Z". *)
  Definition default_not_before : bytes := [50; 48; 50; 51; 48; 50; 50; 55; 48; 48; 48; 48; 48; 48; 90].
  Definition default_not_after : bytes := [57; 57; 57; 57; 49; 50; 51; 49; 50; 51; 53; 57; 53; 57; 90].
  Definition default_ueid : bytes := repeat 0xA 17.

  (** default.rs:86-106 [get_certificate_chain].  [None]: the u32 addition
      [offset + size] overflows (a panic in builds with overflow checks), or the range
      ends behind the chain or the output (a slice panic). *)
  Definition default_chain (offset size : N) (out : bytes) : option ((N + platform_error) * bytes) :=
    let n := N.modulo (N.of_nat (length chain)) (2 ^ 32) in
    if N.leb n offset then Some (inr PECertificateChain, out)
    else if N.leb (2 ^ 32) (offset + size) then None
    else
      let stop := N.min (offset + size) n in
      let written := stop - offset in
      if N.ltb 2048 written then Some (inr PECertificateChain, out)
      else if N.ltb (N.of_nat (length out)) written then None
      else Some (inl written,
                 firstn (N.to_nat written) (skipn (N.to_nat offset) chain) ++ skipn (N.to_nat written) out).

  (** default.rs:108-118 [get_issuer_name]. *)
  Definition default_issuer_name (out : bytes) : (N + platform_error) * bytes :=
    if Nat.ltb (length out) (length issuer) then (inr (PEIssuerName 0), out)
    else (inl (N.of_nat (length issuer)), issuer ++ skipn (length issuer) out).

  (** default.rs:120-136 [get_signer_identifier]; the vectors hold up to
      MAX_ISSUER_NAME_SIZE and MAX_SN_SIZE bytes. *)
  Definition default_signer_identifier : signer_identifier + platform_error :=
    match default_issuer_name (repeat 0 max_issuer_name_size) with
    | (inr e, _) => inr e
    | (inl n, b) =>
        if N.ltb (N.of_nat max_issuer_name_size) n then inr (PEIssuerName 0)
        else if Nat.ltb max_sn_size (length serial) then inr (PESerialNumber 0)
        else inl (IssuerAndSerialNumber (firstn (N.to_nat n) b) serial)
    end.

  (** default.rs:138-148 [get_issuer_key_identifier]. *)
  Definition default_issuer_key_identifier (out : bytes) : (unit + platform_error) * bytes :=
    if Nat.ltb (length ski) max_key_identifier_size then (inr (PEIssuerKeyIdentifier 0), out)
    else (inl tt, firstn max_key_identifier_size ski).

  (** default.rs:85-194 [impl Platform for DefaultPlatform].  An overflow of
      [get_certificate_chain] is shown here as an error; Props_Reference.v proves that it
      does not occur for chains up to 4 GB less 2048 bytes. *)
  Definition default_platform : platform_ops unit :=
    {| po_certificate_chain := fun off size out p =>
         match default_chain off size out with
         | Some (r, b) => (r, b, p)
         | None => (inr PECertificateChain, out, p)
         end;
       po_issuer_name := fun out p => let (r, b) := default_issuer_name out in (r, b, p);
       po_signer_identifier := fun p => (default_signer_identifier, p);
       po_issuer_key_identifier := fun out p => let (r, b) := default_issuer_key_identifier out in (r, b, p);
       po_vendor_id := fun p => (inl default_vendor_id, p);
       po_vendor_sku := fun p => (inl default_vendor_sku, p);
       po_auto_init_locality := fun p => (inl default_auto_init_locality, p);
       po_cert_validity := fun p =>
         (inl {| cv_not_before := default_not_before; cv_not_after := default_not_after |}, p);
       po_subject_alt_name := fun p => (inr PENotImplemented, p);
       po_ueid := fun p => (inl {| ueid_buf := default_ueid ++ repeat 0 31; ueid_size := 17 |}, p) |}.
End Default.
