(** Env.v -- the environment the DPE runs against: the crypto back end (trait
    [Crypto]/[CryptoSuite]/[Hasher]/[CdiManager]/[Signer], crypto/src/lib.rs) and
    the platform (trait [Platform], platform/src/lib.rs), as records of
    operations over an arbitrary state type.  Every operation may answer
    anything (including errors) and may change its own state; nothing is
    assumed about it here.  [DpeEnv::get] hands out crypto, platform and state
    as disjoint mutable borrows (dpe/src/dpe_instance.rs:30-56), hence the three
    separate components of [world]. *)
From Verif Require Import Base Errors Types.
Open Scope N_scope.

(** crypto/src/lib.rs:67-80 [DigestAlgorithm]. *)
Inductive digest_alg := AlgSha256 | AlgSha384.
Definition digest_alg_size (a : digest_alg) : nat :=
  match a with AlgSha256 => 32%nat | AlgSha384 => 48%nat end.

(** crypto/src/lib.rs:174-224 [Digest]: a fixed-size array tagged with its
    algorithm; [digest_bytes] is [as_slice]. *)
Inductive digest := DSha256 (b : bytes) | DSha384 (b : bytes).
Definition digest_bytes (d : digest) : bytes :=
  match d with DSha256 b => to_buf 32 b | DSha384 b => to_buf 48 b end.

(** crypto/src/lib.rs:82-87 [SignatureAlgorithm]; crypto/src/ecdsa.rs
    [EcdsaAlgorithm]. *)
Inductive sig_alg := AlgEcdsa256 | AlgEcdsa384 | AlgMldsa87.

(** crypto/src/lib.rs:320-325 [SignData].  A [ResponseBuffer] range is
    represented by the bytes it denotes ([read_range], modelled in RespBuf.v). *)
Inductive sign_data :=
| SDDigest (d : digest)
| SDMu (b : bytes)
| SDBuffer (b : bytes)
| SDRaw (b : bytes).

(** crypto/src/lib.rs:392-398 [Signature] (crypto/src/ecdsa.rs, ml_dsa.rs);
    the accessors cut to the fixed array sizes. *)
Inductive signature :=
| SigEcdsa256 (r s : bytes)
| SigEcdsa384 (r s : bytes)
| SigMldsa (b : bytes).

(** crypto/src/lib.rs:359-365 [PubKey]. *)
Inductive pubkey :=
| PkEcdsa256 (x y : bytes)
| PkEcdsa384 (x y : bytes)
| PkMldsa (b : bytes).

(** crypto/src/ml_dsa.rs: ML-DSA-87 key and signature sizes. *)
Definition mldsa87_pk_size : N := 2592.
Definition mldsa87_sig_size : N := 4627.

Section Ops.
  Variables C P : Type.

  (** crypto/src/lib.rs:156-172 (Hasher), 425-460 (CryptoSuite), 462-468
      (Signer), 470-522 (CdiManager), 524-656 (Crypto).  The objects returned by
      reference (hasher, CDI, signer) live inside the back end's state [C]. *)
  Record crypto_ops := {
    co_rand_bytes : nat -> C -> (bytes + crypto_error) * C;
    co_hasher : C -> (unit + crypto_error) * C;
    co_hash_initialize : C -> (unit + crypto_error) * C;
    co_hash_update : bytes -> C -> (unit + crypto_error) * C;
    co_hash_finish : C -> (digest + crypto_error) * C;
    co_derive_cdi : digest -> bytes -> C -> (unit + crypto_error) * C;
    co_derive_key_pair : bytes -> bytes -> C -> (unit + crypto_error) * C;
    co_signer_sign : sign_data -> C -> (signature + crypto_error) * C;
    co_signer_public_key : C -> (pubkey + crypto_error) * C;
    co_derive_exported_cdi : digest -> bytes -> C -> (bytes + crypto_error) * C;
    co_derive_key_pair_exported : bytes -> bytes -> bytes -> C -> (unit + crypto_error) * C;
    co_sign_with_alias : sign_data -> C -> (signature + crypto_error) * C;
    co_digest_algorithm : C -> digest_alg;
    co_signature_algorithm : C -> sig_alg
  }.

  (** platform/src/lib.rs:31-44 [Ueid]: 48-byte buffer and claimed size. *)
  Record ueid := { ueid_buf : bytes; ueid_size : N }.

  (** platform/src/lib.rs:55-79. *)
  Inductive signer_identifier :=
  | IssuerAndSerialNumber (issuer_name serial : bytes)
  | SubjectKeyIdentifier (kid : bytes).
  Record other_name := { on_oid : bytes; on_value : bytes }.
  Record cert_validity := { cv_not_before : bytes; cv_not_after : bytes }.

  (** platform/src/lib.rs:157-223 [Platform].  Output buffers are passed in and
      returned, because the callee may leave parts of them unwritten. *)
  Record platform_ops := {
    po_certificate_chain : N -> N -> bytes -> P -> (N + platform_error) * bytes * P;
    po_issuer_name : bytes -> P -> (N + platform_error) * bytes * P;
    po_signer_identifier : P -> (signer_identifier + platform_error) * P;
    po_issuer_key_identifier : bytes -> P -> (unit + platform_error) * bytes * P;
    po_vendor_id : P -> (N + platform_error) * P;
    po_vendor_sku : P -> (N + platform_error) * P;
    po_auto_init_locality : P -> (N + platform_error) * P;
    po_cert_validity : P -> (cert_validity + platform_error) * P;
    po_subject_alt_name : P -> (other_name + platform_error) * P;
    po_ueid : P -> (ueid + platform_error) * P
  }.

  (** Everything a command can read or write: the persistent state, the crypto
      back end, the platform and the caller's response buffer (capacity =
      its length). *)
  Record world := mkWorld {
    w_st : state;
    w_c : C;
    w_p : P;
    w_out : bytes
  }.

  (** A computation in the world.  Changes made before an error are kept, as
      in Rust. *)
  Definition M (A : Type) := world -> result A * world.

  Definition ret {A} (a : A) : M A := fun w => (Ok a, w).
  Definition fail {A} (e : dpe_error) : M A := fun w => (Err e, w).
  Definition bind {A B} (m : M A) (f : A -> M B) : M B := fun w =>
    match m w with
    | (Ok a, w') => f a w'
    | (Err e, w') => (Err e, w')
    | (Crash c, w') => (Crash c, w')
    end.
  Definition lift {A} (r : result A) : M A := fun w => (r, w).
  Definition get_st : M state := fun w => (Ok (w_st w), w).
  Definition put_st (s : state) : M unit := fun w =>
    (Ok tt, mkWorld s (w_c w) (w_p w) (w_out w)).

  (** Calling the crypto back end; [?] converts CryptoError to
      DpeErrorCode::Crypto (dpe/src/error.rs:200-204). *)
  Definition crypto {A} (f : C -> (A + crypto_error) * C) : M A := fun w =>
    match f (w_c w) with
    | (inl a, c) => (Ok a, mkWorld (w_st w) c (w_p w) (w_out w))
    | (inr e, c) => (Err (CryptoErr e), mkWorld (w_st w) c (w_p w) (w_out w))
    end.

  (** Calling the platform; [?] converts PlatformError to
      DpeErrorCode::Platform (dpe/src/error.rs:194-198). *)
  Definition platform {A} (f : P -> (A + platform_error) * P) : M A := fun w =>
    match f (w_p w) with
    | (inl a, p) => (Ok a, mkWorld (w_st w) (w_c w) p (w_out w))
    | (inr e, p) => (Err (PlatformErr e), mkWorld (w_st w) (w_c w) p (w_out w))
    end.

  (** [out.write_at(off, bs)] on a SliceResponseBuffer
      (response-buffer/src/lib.rs:112-121) followed by
      [.map_err(|_| InvalidResponseBuf)?].  Simplified: [usize] is unbounded, so
      the [checked_add] never overflows (RespBuf.v models the bounded version). *)
  Definition write_out (off : nat) (bs : bytes) : M unit := fun w =>
    if (Nat.leb (off + length bs) (length (w_out w))) then
      (Ok tt, mkWorld (w_st w) (w_c w) (w_p w)
                (firstn off (w_out w) ++ bs ++ skipn (off + length bs) (w_out w)))
    else (Err InvalidResponseBuf, w).
End Ops.

Arguments ret {C P A} a w /.
Arguments fail {C P A} e w /.
Arguments bind {C P A B} m f w.
Arguments lift {C P A} r w /.
Arguments get_st {C P} w /.
Arguments put_st {C P} s w /.
Arguments crypto {C P A} f w.
Arguments platform {C P A} f w.
Arguments write_out {C P} off bs w.
Arguments mkWorld {C P} _ _ _ _.
Arguments w_st {C P} _.
Arguments w_c {C P} _.
Arguments w_p {C P} _.
Arguments w_out {C P} _.
Arguments co_rand_bytes {C} _ _ _.
Arguments co_hasher {C} _ _.
Arguments co_hash_initialize {C} _ _.
Arguments co_hash_update {C} _ _ _.
Arguments co_hash_finish {C} _ _.
Arguments co_derive_cdi {C} _ _ _ _.
Arguments co_derive_key_pair {C} _ _ _ _.
Arguments co_signer_sign {C} _ _ _.
Arguments co_signer_public_key {C} _ _.
Arguments co_derive_exported_cdi {C} _ _ _ _.
Arguments co_derive_key_pair_exported {C} _ _ _ _ _.
Arguments co_sign_with_alias {C} _ _ _.
Arguments co_digest_algorithm {C} _ _.
Arguments co_signature_algorithm {C} _ _.
Arguments po_certificate_chain {P} _ _ _ _ _.
Arguments po_issuer_name {P} _ _ _.
Arguments po_signer_identifier {P} _ _.
Arguments po_issuer_key_identifier {P} _ _ _.
Arguments po_vendor_id {P} _ _.
Arguments po_vendor_sku {P} _ _.
Arguments po_auto_init_locality {P} _ _.
Arguments po_cert_validity {P} _ _.
Arguments po_subject_alt_name {P} _ _.
Arguments po_ueid {P} _ _.

Declare Scope dpe_scope.
Delimit Scope dpe_scope with dpe.
Notation "'let!' x ':=' m 'in' k" := (bind m (fun x => k))
  (at level 200, x pattern, m at level 100, k at level 200, right associativity) : dpe_scope.
Notation "m ';;' k" := (bind m (fun _ => k))
  (at level 100, k at level 200, right associativity) : dpe_scope.
