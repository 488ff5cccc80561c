(** PanicCheck.v -- the program whose binary the panic check looks at
    (verification/panic-check/firmware/src): a DPE over a crypto back end and a platform
    that implement next to nothing. *)
From Verif Require Import Base Errors Types StateOps Env Wire Instance Commands Response X509 X509Cert.
Open Scope N_scope.

(** crypto_dummy.rs:32-145.  [hasher] succeeds, the hasher itself does not; the
    algorithms are those of P-256 whatever the profile.  [derive_key_pair], [sign] and
    [public_key] belong to values that are never handed out. *)
Definition dummy_crypto : crypto_ops unit :=
  {| co_rand_bytes := fun _ c => (inr CENotImplemented, c);
     co_hasher := fun c => (inl tt, c);
     co_hash_initialize := fun c => (inr CENotImplemented, c);
     co_hash_update := fun _ c => (inr CENotImplemented, c);
     co_hash_finish := fun c => (inr CENotImplemented, c);
     co_derive_cdi := fun _ _ c => (inr CENotImplemented, c);
     co_derive_key_pair := fun _ _ c => (inr CENotImplemented, c);
     co_signer_sign := fun _ c => (inr CENotImplemented, c);
     co_signer_public_key := fun c => (inr CENotImplemented, c);
     co_derive_exported_cdi := fun _ _ c => (inr CENotImplemented, c);
     co_derive_key_pair_exported := fun _ _ _ c => (inr CENotImplemented, c);
     co_sign_with_alias := fun _ c => (inr CENotImplemented, c);
     co_digest_algorithm := fun _ => AlgSha256;
     co_signature_algorithm := fun _ => AlgEcdsa256 |}.

(** platform_dummy.rs:24-97. *)
Definition dummy_platform : platform_ops unit :=
  {| po_certificate_chain := fun _ _ buf p => (inr PENotImplemented, buf, p);
     po_issuer_name := fun buf p => (inr PENotImplemented, buf, p);
     po_signer_identifier := fun p => (inr PENotImplemented, p);
     po_issuer_key_identifier := fun buf p => (inr PENotImplemented, buf, p);
     po_vendor_id := fun p => (inl 0, p);
     po_vendor_sku := fun p => (inl 0, p);
     po_auto_init_locality := fun p => (inl 0, p);
     po_cert_validity := fun p => (inr PENotImplemented, p);
     po_subject_alt_name := fun p => (inr PENotImplemented, p);
     po_ueid := fun p => (inl {| ueid_buf := to_buf 48 (repeat 0xA 17); ueid_size := 17 |}, p) |}.

(** main.rs:73-87: the profile of a build.  The platform's profile is not used. *)
Definition firmware_profile (p384 mldsa : bool) : profile :=
  if mldsa then Mldsa87 else if p384 then P384Sha384 else P256Sha256.

Section Firmware.
  Variable cf : config.
  Notation gen := (x509_gen cf unit unit dummy_crypto dummy_platform).

  (** main.rs:70-71, 89-96: [Support::default()] is 0, MARK_DICE_EXTENSIONS_CRITICAL is
      bit 15. *)
  Definition firmware_start : world unit unit := mkWorld (state_new cf 0 (bit 15)) tt tt [].

  (** One request (main.rs:103). *)
  Definition firmware_serve (loc : N) (b : bytes) (w : world unit unit) : result response * world unit unit :=
    execute_serialized_command cf unit unit dummy_crypto dummy_platform gen loc b w.

  (** main.rs:59-104 [main], without the deliberate panic of the feature should-fail.
      The request is the slice of one byte, whose value [black_box] hides from the
      compiler.  [None]: [DpeInstance::new] failed and main returned. *)
  Definition firmware_main (b : N) : option (result response * world unit unit) :=
    match dpe_new cf unit unit dummy_crypto dummy_platform firmware_start with
    | (Ok _, w) => Some (firmware_serve 1 [b] w)
    | (Err _, _) => None
    | (Crash k, w) => Some (Crash k, w)
    end.

  (** The same DPE for any number of requests of any length. *)
  Fixpoint firmware_serves (l : list (N * bytes)) (w : world unit unit) : list (result response) * world unit unit :=
    match l with
    | [] => ([], w)
    | (loc, b) :: l' =>
        let (r, w1) := firmware_serve loc b w in
        let (rs, w2) := firmware_serves l' w1 in (r :: rs, w2)
    end.
End Firmware.
