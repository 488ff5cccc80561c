(** SuiteSign.v -- the tests of Sign of the verification suite that verify a signature
    (verification/testing/sign.go, sign_raw.go).  The verifiers of Go's libraries are not
    modelled: they are parameters.  Complaints are known by their lines, as in Suite.v. *)
From Verif Require Import Base Errors Types StateOps Env Wire Instance Commands Response X509 X509Cert RustCrypto DefaultPlatform Simulator GoClient Suite.
Open Scope N_scope.

(** sign.go:35-38, 40-43; sign_raw.go:33-35, 90-92: the octets 0, 1, 2, ... *)
Definition counting (n : nat) : bytes := map (fun i => N.of_nat i mod 256) (seq 0 n).
(** [new(big.Int).SetBytes]. *)
Definition big_int (b : bytes) : N := fold_left (fun a x => 256 * a + x) b 0.
(** mldsa87.SignatureSize. *)
Definition MldsaSignatureSize : N := 4627.
(** sign_raw.go:46 "This is a test message for ML-DSA raw signing" and 102 "Another test
    message for consistency check". *)
Definition raw_message : bytes :=
  [84; 104; 105; 115; 32; 105; 115; 32; 97; 32; 116; 101; 115; 116; 32; 109; 101; 115; 115; 97; 103; 101; 32; 102; 111; 114; 32; 77; 76; 45; 68; 83; 65; 32;
   114; 97; 119; 32; 115; 105; 103; 110; 105; 110; 103].
Definition other_message : bytes :=
  [65; 110; 111; 116; 104; 101; 114; 32; 116; 101; 115; 116; 32; 109; 101; 115; 115; 97; 103; 101; 32; 102; 111; 114; 32; 99; 111; 110; 115; 105; 115; 116; 101;
   110; 99; 121; 32; 99; 104; 101; 99; 107].

Section SuiteSign.
  Variable T : Type.
  Variable send : N -> bytes -> T -> option bytes * T.
  Variable sup : go_support.
  Variable c : go_client.
  (** x509.ParseCertificate accepts the octets. *)
  Variable parses : bytes -> bool.
  (** ecdsa.Verify on P256 or P384: the point, the digest, r and s. *)
  Variables verify256 verify384 : N -> N -> bytes -> N -> N -> bool.
  (** [UnmarshalBinary] of an ML-DSA key; mldsa87.Verify: key, message, signature. *)
  Variable mldsa_key : bytes -> bool.
  Variable mldsa_verify : bytes -> bytes -> bytes -> bool.
  (** client.CalculateExternalMu (abi.go:981-991): message, key. *)
  Variable external_mu : bytes -> bytes -> bytes.
  Notation "x <- m ;; k" := (andthen T m (fun x => k)) (at level 61, m at next level, right associativity).
  Notation "m ;;; k" := (andthen T m (fun _ => k)) (at level 61, right associativity).

  (** A call that must return a certified key: handle, the two parts of the key, certificate. *)
  Definition must_certify (q : go_call) (line : N) : test T (bytes * bytes * bytes * bytes) :=
    r <- Suite.call T send c q ;;
    match r with
    | GoOk (VKey h x y cert) => done T (h, x, y, cert)
    | GoErr _ => stopped T line
    | _ => crashed T
    end.
  (** A call that must return a signature: r, s, or the ML-DSA signature. *)
  Definition must_sign (q : go_call) (line : N) : test T (bytes * bytes * bytes) :=
    r <- Suite.call T send c q ;;
    match r with
    | GoOk (VSigned _ rr ss sg) => done T (rr, ss, sg)
    | GoErr _ => stopped T line
    | _ => crashed T
    end.
  (** [t.Skip] ends the test without a complaint. *)
  Definition skip {A} : test T A := fun b => (None, [], b).
  Definition right_length (sg : bytes) : bool := N.eqb (N.of_nat (length sg)) MldsaSignatureSize.

  (** sign.go:20-105 [TestAsymmetricSigning].  For a digest of another size than 32 or 48
      bytes the curve would be nil. *)
  Definition test_asymmetric : test T unit :=
    h <- initial_handle T send sup c false ;;
    p <- transport_profile T send c 26 ;;
    k <- must_certify (GcCertify h (counting (profile_digest_size p)) 0 0) 48 ;;
    match k with (h1, x, y, cert) =>
      let msg := counting (profile_sign_data_size p) in
      let tbs := if N.eqb p 5 then external_mu msg x else msg in
      g <- must_sign (GcSign h1 (counting (profile_digest_size p)) 0 tbs) 59 ;;
      match g with (rr, ss, sg) =>
        if N.eqb p 5 then
          check T (right_length sg) 64 ;;;
          must T (mldsa_key x) 69 ;;;
          check T (mldsa_verify x msg sg) 73
        else
          must T (parses cert) 80 ;;;
          match profile_digest_size p with
          | 32%nat => check T (verify256 (big_int x) (big_int y) tbs (big_int rr) (big_int ss)) 103
          | 48%nat => check T (verify384 (big_int x) (big_int y) tbs (big_int rr) (big_int ss)) 103
          | _ => crashed T
          end
      end
    end.

  (** sign_raw.go:14-67 [TestSignRawMode]. *)
  Definition test_sign_raw : test T unit :=
    p <- transport_profile T send c 18 ;;
    if negb (N.eqb p 5) then skip else
    h <- initial_handle T send sup c false ;;
    k <- must_certify (GcCertify h (counting (profile_digest_size p)) 0 0) 40 ;;
    match k with (h1, x, _, _) =>
      g <- must_sign (GcSignRaw h1 (counting (profile_digest_size p)) raw_message) 50 ;;
      match g with (_, _, sg) =>
        check T (right_length sg) 55 ;;;
        must T (mldsa_key x) 60 ;;;
        check T (mldsa_verify x raw_message sg) 65
      end
    end.

  (** sign_raw.go:71-134 [TestSignRawConsistencyWithNormalMu]. *)
  Definition test_raw_consistency : test T unit :=
    p <- transport_profile T send c 75 ;;
    if negb (N.eqb p 5) then skip else
    h <- initial_handle T send sup c false ;;
    k <- must_certify (GcCertify h (counting (profile_digest_size p)) 0 0) 97 ;;
    match k with (h1, x, _, _) =>
      g1 <- must_sign (GcSignRaw h1 (counting (profile_digest_size p)) other_message) 107 ;;
      g2 <- must_sign (GcSign h1 (counting (profile_digest_size p)) 0 (external_mu other_message x)) 114 ;;
      match g1, g2 with (_, _, sg1), (_, _, sg2) =>
        must T (mldsa_key x) 120 ;;;
        check T (mldsa_verify x other_message sg1) 124 ;;;
        check T (mldsa_verify x other_message sg2) 128 ;;;
        check T (same_handle sg1 sg2) 132
      end
    end.

  (** verification.go:96-98 and 236-244 for TestAsymmetricSigning. *)
  Definition run_asymmetric (b : bench T) : outcome * bench T :=
    if forallb (fun f => f sup) [gs_auto_init; gs_x509]
    then match test_asymmetric b with (_, cs, b1) => (Ran cs, b1) end
    else (Skipped, b).
End SuiteSign.
