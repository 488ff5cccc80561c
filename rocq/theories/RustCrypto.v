(** RustCrypto.v -- the reference crypto back end (crypto/src/rustcrypto.rs,
    crypto/src/hkdf.rs).  The cryptographic algorithms themselves (random generator,
    SHA-2, HKDF, ECDSA, ML-DSA) come from external crates and are parameters; what is
    modelled is how the back end uses them. *)
From Verif Require Import Base Errors Types Env.
Open Scope N_scope.

(** The external crates: StdRng (rand), Sha256/Sha384 (sha2), Hkdf (hkdf), SigningKey
    (p256, p384, ml-dsa).  [None] is an error of the crate.  A valid ECDSA secret always
    has a public point with two coordinates, so [point.x()] and [point.y()] are not
    options here. *)
Record primitives (R : Type) := {
  pr_fill : nat -> R -> bytes * R;
  pr_sha256 : bytes -> bytes;
  pr_sha384 : bytes -> bytes;
  (** [Hkdf::new(Some(salt), ikm)] and [expand(info, n bytes)]. *)
  pr_hkdf256 : bytes -> bytes -> bytes -> nat -> option bytes;
  pr_hkdf384 : bytes -> bytes -> bytes -> nat -> option bytes;
  (** [SigningKey::from_slice] succeeds. *)
  pr_valid256 : bytes -> bool;
  pr_valid384 : bytes -> bool;
  (** The public point of a secret. *)
  pr_point256 : bytes -> bytes * bytes;
  pr_point384 : bytes -> bytes * bytes;
  (** [sign_prehash]: secret, digest. *)
  pr_sign256 : bytes -> bytes -> option (bytes * bytes);
  pr_sign384 : bytes -> bytes -> option (bytes * bytes);
  (** ML-DSA-87 keys from a 32-byte seed. *)
  pr_mldsa_public : bytes -> bytes;
  pr_mldsa_sign_mu : bytes -> bytes -> bytes;
  pr_mldsa_sign : bytes -> bytes -> bytes;
  (** The alias keys, decoded from the PEM artifacts. *)
  pr_alias256 : option bytes;
  pr_alias384 : option bytes;
  pr_alias_mldsa : option bytes
}.
Arguments pr_fill {R}. Arguments pr_sha256 {R}. Arguments pr_sha384 {R}. Arguments pr_hkdf256 {R}. Arguments pr_hkdf384 {R}.
Arguments pr_valid256 {R}. Arguments pr_valid384 {R}. Arguments pr_point256 {R}. Arguments pr_point384 {R}.
Arguments pr_sign256 {R}. Arguments pr_sign384 {R}. Arguments pr_mldsa_public {R}. Arguments pr_mldsa_sign_mu {R}.
Arguments pr_mldsa_sign {R}. Arguments pr_alias256 {R}. Arguments pr_alias384 {R}. Arguments pr_alias_mldsa {R}.

(** rustcrypto.rs:39-43. *)
Definition rc_ecdsa_error : crypto_error := CECryptoLib 1.
Definition rc_sec_error : crypto_error := CECryptoLib 2.
Definition rc_mldsa_error : crypto_error := CECryptoLib 3.

(** rustcrypto.rs:144-145. *)
Definition max_cdi_handles : nat := 1%nat.

Section Rust.
  Variable R : Type.
  Variable pr : primitives R.
  (** rustcrypto.rs:248-256: [signature_alg] and [digest_alg] of the instance.  The CDI
      and the signer keep copies of [signature_alg] (lines 225-229, 147-150); [new] sets
      them to it (lines 284-300) and lines 239 and 476 only ever store it again, so one
      value stands for all of them. *)
  Variable sig : sig_alg.
  Variable dig : digest_alg.

  (** rustcrypto.rs:248-256 [RustCryptoImpl]: the random generator, the exported CDIs
      with their handles, the running hash (the data fed to it), the current CDI and the
      current private key. *)
  Record rust_c := mkRust {
    rc_rng : R;
    rc_slots : list (bytes * bytes);
    rc_hasher : option bytes;
    rc_cdi : bytes;
    rc_key : bytes
  }.

  (** rustcrypto.rs:280-301 [new]. *)
  Definition rust_new (seed : R) : rust_c := mkRust seed [] (Some []) [] [].

  (** hkdf.rs:16-48 [hkdf_derive_cdi]; crypto/src/ecdsa/mod.rs:139-146 curve_size,
      ml_dsa.rs:19-23 seed_size.  An error of HKDF is HashError(0) (hkdf.rs:10-14). *)
  Definition hkdf_derive_cdi (measurement : digest) (info : bytes) : bytes + crypto_error :=
    let m := digest_bytes measurement in
    match match sig with
          | AlgEcdsa256 => pr_hkdf256 pr info m m 32%nat
          | AlgEcdsa384 => pr_hkdf384 pr info m m 48%nat
          | AlgMldsa87 => pr_hkdf256 pr info m m 32%nat
          end with
    | Some cdi => inl cdi
    | None => inr (CEHash 0)
    end.

  (** hkdf.rs:50-80 [hkdf_get_priv_key]. *)
  Definition hkdf_get_priv_key (cdi label info : bytes) : bytes + crypto_error :=
    match match sig with
          | AlgEcdsa256 => pr_hkdf256 pr info cdi label 32%nat
          | AlgEcdsa384 => pr_hkdf384 pr info cdi label 48%nat
          | AlgMldsa87 => pr_hkdf256 pr info cdi label 32%nat
          end with
    | Some key => inl key
    | None => inr (CEHash 0)
    end.

  (** rustcrypto.rs:113-142 [impl Hasher].  The digest has the size of its algorithm
      ([read_from_bytes] checks it). *)
  Definition rc_initialize (c : rust_c) : (unit + crypto_error) * rust_c :=
    (inl tt, mkRust (rc_rng c) (rc_slots c) (Some []) (rc_cdi c) (rc_key c)).
  Definition rc_update (b : bytes) (c : rust_c) : (unit + crypto_error) * rust_c :=
    match rc_hasher c with
    | None => (inr (CEHash 0), c)
    | Some h => (inl tt, mkRust (rc_rng c) (rc_slots c) (Some (h ++ b)) (rc_cdi c) (rc_key c))
    end.
  Definition rc_finish (c : rust_c) : (digest + crypto_error) * rust_c :=
    match rc_hasher c with
    | None => (inr (CEHash 1), c)
    | Some h =>
        (match dig with
         | AlgSha256 => let d := pr_sha256 pr h in
                        if Nat.eqb (length d) 32 then inl (DSha256 d) else inr CESize
         | AlgSha384 => let d := pr_sha384 pr h in
                        if Nat.eqb (length d) 48 then inl (DSha384 d) else inr CESize
         end, mkRust (rc_rng c) (rc_slots c) None (rc_cdi c) (rc_key c))
    end.

  (** rustcrypto.rs:354-390 [ecdsa_sign_data_inner]: what is passed to [sign_prehash].
      A response buffer range is the bytes it denotes (Env.v). *)
  Definition ecdsa_prehash (sha : bytes -> bytes) (data : sign_data) : bytes + crypto_error :=
    match data with
    | SDDigest d => inl (digest_bytes d)
    | SDBuffer b | SDRaw b => inl (sha b)
    | SDMu _ => inr CEMismatchedAlgorithm
    end.

  (** rustcrypto.rs:392-415 [mldsa_sign_data_inner]. *)
  Definition mldsa_sign (key : bytes) (data : sign_data) : signature + crypto_error :=
    match data with
    | SDMu mu => inl (SigMldsa (pr_mldsa_sign_mu pr key mu))
    | SDBuffer b | SDRaw b => inl (SigMldsa (pr_mldsa_sign pr key b))
    | SDDigest _ => inr CEMismatchedAlgorithm
    end.

  Definition ecdsa256_sign (key : bytes) (data : sign_data) : signature + crypto_error :=
    match ecdsa_prehash (pr_sha256 pr) data with
    | inr e => inr e
    | inl h => match pr_sign256 pr key h with
               | Some (r, s) => inl (SigEcdsa256 r s)
               | None => inr rc_ecdsa_error
               end
    end.
  Definition ecdsa384_sign (key : bytes) (data : sign_data) : signature + crypto_error :=
    match ecdsa_prehash (pr_sha384 pr) data with
    | inr e => inr e
    | inl h => match pr_sign384 pr key h with
               | Some (r, s) => inl (SigEcdsa384 r s)
               | None => inr rc_ecdsa_error
               end
    end.

  (** rustcrypto.rs:153-178 [Signer::sign] with the private key [key]. *)
  Definition key_sign (key : bytes) (data : sign_data) : signature + crypto_error :=
    match sig with
    | AlgEcdsa256 => if pr_valid256 pr key then ecdsa256_sign key data else inr rc_ecdsa_error
    | AlgEcdsa384 => if pr_valid384 pr key then ecdsa384_sign key data else inr rc_ecdsa_error
    | AlgMldsa87 => if Nat.eqb (length key) 32 then mldsa_sign key data else inr rc_mldsa_error
    end.

  (** rustcrypto.rs:180-222 [Signer::public_key]. *)
  Definition key_public (key : bytes) : pubkey + crypto_error :=
    match sig with
    | AlgEcdsa256 =>
        if pr_valid256 pr key then let (x, y) := pr_point256 pr key in inl (PkEcdsa256 x y) else inr rc_ecdsa_error
    | AlgEcdsa384 =>
        if pr_valid384 pr key then let (x, y) := pr_point384 pr key in inl (PkEcdsa384 x y) else inr rc_ecdsa_error
    | AlgMldsa87 =>
        if Nat.eqb (length key) 32 then inl (PkMldsa (pr_mldsa_public pr key)) else inr rc_mldsa_error
    end.

  (** rustcrypto.rs:233-241 [CdiManager::derive_key_pair]. *)
  Definition rc_derive_key_pair (label info : bytes) (c : rust_c) : (unit + crypto_error) * rust_c :=
    match hkdf_get_priv_key (rc_cdi c) label info with
    | inl key => (inl tt, mkRust (rc_rng c) (rc_slots c) (rc_hasher c) (rc_cdi c) key)
    | inr e => (inr e, c)
    end.

  (** rustcrypto.rs:423-426 [rand_bytes]. *)
  Definition rc_rand_bytes (n : nat) (c : rust_c) : (bytes + crypto_error) * rust_c :=
    let (b, g) := pr_fill pr n (rc_rng c) in
    (inl b, mkRust g (rc_slots c) (rc_hasher c) (rc_cdi c) (rc_key c)).

  (** rustcrypto.rs:428-438 [derive_cdi]. *)
  Definition rc_derive_cdi (measurement : digest) (info : bytes) (c : rust_c) : (unit + crypto_error) * rust_c :=
    match hkdf_derive_cdi measurement info with
    | inl cdi => (inl tt, mkRust (rc_rng c) (rc_slots c) (rc_hasher c) cdi (rc_key c))
    | inr e => (inr e, c)
    end.

  (** rustcrypto.rs:440-463 [derive_exported_cdi]. *)
  Definition rc_derive_exported_cdi (measurement : digest) (info : bytes) (c : rust_c) : (bytes + crypto_error) * rust_c :=
    match hkdf_derive_cdi measurement info with
    | inr e => (inr e, c)
    | inl cdi =>
        if existsb (fun p => bytes_eqb (fst p) cdi) (rc_slots c) then (inr CEExportedCdiHandleDuplicateCdi, c)
        else if Nat.leb max_cdi_handles (length (rc_slots c)) then (inr CEExportedCdiHandleLimitExceeded, c)
        else
          match rc_rand_bytes 32 c with
          | (inr e, c') => (inr e, c')
          | (inl r, c') =>
              let h := to_buf 32 r in
              (inl h, mkRust (rc_rng c') (rc_slots c' ++ [(cdi, h)]) (rc_hasher c') (rc_cdi c') (rc_key c'))
          end
    end.

  (** rustcrypto.rs:465-481 [derive_key_pair_exported]. *)
  Definition rc_derive_key_pair_exported (handle label info : bytes) (c : rust_c) : (unit + crypto_error) * rust_c :=
    match find (fun p => bytes_eqb (snd p) handle) (rc_slots c) with
    | None => (inr CEInvalidExportedCdiHandle, c)
    | Some (cdi, _) => rc_derive_key_pair label info (mkRust (rc_rng c) (rc_slots c) (rc_hasher c) cdi (rc_key c))
    end.

  (** rustcrypto.rs:483-503 [sign_with_alias]. *)
  Definition alias_sign (data : sign_data) : signature + crypto_error :=
    match sig with
    | AlgEcdsa256 => match pr_alias256 pr with Some k => ecdsa256_sign k data | None => inr rc_sec_error end
    | AlgEcdsa384 => match pr_alias384 pr with Some k => ecdsa384_sign k data | None => inr rc_sec_error end
    | AlgMldsa87 => match pr_alias_mldsa pr with Some k => mldsa_sign k data | None => inr rc_mldsa_error end
    end.

  (** rustcrypto.rs:418-504 [impl Crypto for RustCryptoImpl]. *)
  Definition rust_ops : crypto_ops rust_c :=
    {| co_rand_bytes := rc_rand_bytes;
       co_hasher := fun c => (inl tt, c);
       co_hash_initialize := rc_initialize;
       co_hash_update := rc_update;
       co_hash_finish := rc_finish;
       co_derive_cdi := rc_derive_cdi;
       co_derive_key_pair := rc_derive_key_pair;
       co_signer_sign := fun data c => (key_sign (rc_key c) data, c);
       co_signer_public_key := fun c => (key_public (rc_key c), c);
       co_derive_exported_cdi := rc_derive_exported_cdi;
       co_derive_key_pair_exported := rc_derive_key_pair_exported;
       co_sign_with_alias := fun data c => (alias_sign data, c);
       co_digest_algorithm := fun _ => dig;
       co_signature_algorithm := fun _ => sig |}.
End Rust.
Arguments mkRust {R}. Arguments rc_rng {R}. Arguments rc_slots {R}. Arguments rc_hasher {R}. Arguments rc_cdi {R}. Arguments rc_key {R}.

(** rustcrypto.rs:329-352 [new_ecc256], [new_ecc384], [new_mldsa87]: the signature
    algorithm of the back end for a profile. *)
Definition profile_alg (p : profile) : sig_alg :=
  match p with P256Sha256 => AlgEcdsa256 | P384Sha384 => AlgEcdsa384 | Mldsa87 => AlgMldsa87 end.
