(** SuiteChain.v -- the test of GetCertificateChain of the verification suite
    (verification/testing/getCertificateChain.go, certifyKey.go).  The parsers, the linter and
    the verifiers of Go's libraries are not modelled: they are parameters.  Complaints are
    known by their lines, as in Suite.v; the logged texts are left out. *)
From Verif Require Import Base Errors Types StateOps Env Wire Instance Commands Response X509 X509Cert RustCrypto DefaultPlatform Simulator GoClient Suite.
Open Scope N_scope.

(** An object identifier. *)
Definition oid := list N.
(** What the test uses of an x509.Certificate: the texts of Subject and Issuer,
    UnhandledCriticalExtensions, UnknownExtKeyUsage; whether line 134 takes it for ML-DSA; the
    key in RawSubjectPublicKeyInfo, if asn1.Unmarshal reads it; RawTBSCertificate and
    Signature. *)
Record go_cert := { ct_subject : bytes; ct_issuer : bytes; ct_critical : list oid; ct_usages : list oid;
  ct_mldsa : bool; ct_key : option bytes; ct_tbs : bytes; ct_signature : bytes }.
Definition set_critical (l : list oid) (x : go_cert) : go_cert :=
  {| ct_subject := ct_subject x; ct_issuer := ct_issuer x; ct_critical := l; ct_usages := ct_usages x;
     ct_mldsa := ct_mldsa x; ct_key := ct_key x; ct_tbs := ct_tbs x; ct_signature := ct_signature x |}.
Definition set_usages (l : list oid) (x : go_cert) : go_cert :=
  {| ct_subject := ct_subject x; ct_issuer := ct_issuer x; ct_critical := ct_critical x; ct_usages := l;
     ct_mldsa := ct_mldsa x; ct_key := ct_key x; ct_tbs := ct_tbs x; ct_signature := ct_signature x |}.
Definition same_oid (a b : oid) : bool := if list_eq_dec N.eq_dec a b then true else false.
Definition self_issued (x : go_cert) : bool := same_handle (ct_subject x) (ct_issuer x).

(** certifyKey.go:34-37 [TcgDiceCriticalExtensions], 41-45 [TcgDiceExtendedKeyUsages]; the
    identifiers are those of certs.go:21-29. *)
Definition dice_critical : list oid := [[2; 23; 133; 5; 4; 5]; [2; 23; 133; 5; 4; 4]].
Definition dice_usages : list oid := [[2; 23; 133; 5; 4; 100; 7]; [2; 23; 133; 5; 4; 100; 9]; [2; 23; 133; 5; 4; 100; 12]].

(** The maps of certifyKey.go:260 and 293, from subjects to unknown identifiers. *)
Definition unknown_map := list (bytes * list oid).
Fixpoint map_put (k : bytes) (v : list oid) (m : unknown_map) : unknown_map :=
  match m with
  | [] => [(k, v)]
  | (k1, v1) :: r => if same_handle k k1 then (k, v) :: r else (k1, v1) :: map_put k v r
  end.

Section SuiteChain.
  Variable T : Type.
  Variable send : N -> bytes -> T -> option bytes * T.
  Variable sup : go_support.
  Variable c : go_client.
  (** A certificate of zcrypto. *)
  Variable Z : Type.
  (** x509.ParseCertificates; zx509.ParseCertificates, which returns no certificates with an
      error. *)
  Variable parse : bytes -> option (list go_cert).
  Variable zparse : bytes -> option (list Z).
  (** How many lints have the status Error or Warn (lines 83-91). *)
  Variable lints : Z -> nat.
  (** [UnmarshalBinary] of an ML-DSA key; mldsa87.Verify: key, message, signature. *)
  Variable mldsa_key : bytes -> bool.
  Variable mldsa_verify : bytes -> bytes -> bytes -> bool.
  (** [cert.Verify] with this root and these intermediates: whether there was no error, and
      the number of chains. *)
  Variable verify : go_cert -> list go_cert -> go_cert -> bool * nat.
  Notation "m ;;; k" := (andthen T m (fun _ => k)) (at level 61, right associativity).

  (** [n] complaints at one line. *)
  Fixpoint failed_times (n : nat) (line : N) : test T unit :=
    match n with O => done T tt | S n' => failed T line ;;; failed_times n' line end.

  (** certifyKey.go:258-284 and 291-317, which are the same but for the field: the loop, and
      what is reported.  The order of the map's entries does not matter, since all are
      reported at one line. *)
  Fixpoint remove_loop (get : go_cert -> list oid) (set : list oid -> go_cert -> go_cert) (known : list oid) (m : unknown_map) (xs : list go_cert)
    : list go_cert * unknown_map :=
    match xs with
    | [] => ([], m)
    | x :: r =>
        if Nat.ltb 0 (length (get x)) then
          let unknown := filter (fun o => negb (existsb (same_oid o) known)) (get x) in
          if Nat.eqb (length m) 0
          then let (r1, m1) := remove_loop get set known m r in (set [] x :: r1, m1)
          else let (r1, m1) := remove_loop get set known (map_put (ct_subject x) unknown m) r in (x :: r1, m1)
        else let (r1, m1) := remove_loop get set known m r in (x :: r1, m1)
    end.
  Definition remove (get : go_cert -> list oid) (set : list oid -> go_cert -> go_cert) (known : list oid) (l1 l2 : N) (xs : list go_cert) : test T (list go_cert) :=
    let (xs1, m) := remove_loop get set known [] xs in
    (if Nat.ltb 0 (length m) then failed_times (length m) l1 ;;; failed T l2 else done T tt) ;;;
    done T xs1.

  (** certifyKey.go:715-737 [buildVerifyOptions]: the root and the intermediates. *)
  Fixpoint intermediates (xs : list go_cert) : test T (list go_cert) :=
    match xs with
    | [] => done T []
    | x :: r =>
        if self_issued x then failed T 724 ;;; intermediates r
        else andthen T (intermediates r) (fun l => done T (x :: l))
    end.
  Definition verify_options (xs : list go_cert) : test T (go_cert * list go_cert) :=
    match xs with
    | [] => crashed T
    | root :: r => andthen T (intermediates r) (fun l => done T (root, l))
    end.

  (** getCertificateChain.go:148-167: the signature of an ML-DSA certificate. *)
  Definition validate_mldsa (issuer x : go_cert) : test T unit :=
    match ct_key issuer with
    | None => failed T 154
    | Some k =>
        if mldsa_key k then check T (mldsa_verify k (ct_tbs x) (ct_signature x)) 165
        else failed T 160
    end.
  (** getCertificateChain.go:133-179: the loop, with the certificate before. *)
  Fixpoint validate_loop (root : go_cert) (inter : list go_cert) (before : option go_cert) (xs : list go_cert) : test T unit :=
    match xs with
    | [] => done T tt
    | x :: r =>
        (if ct_mldsa x then
           match before with
           | None => if self_issued x then validate_mldsa x x else done T tt
           | Some issuer => validate_mldsa issuer x
           end
         else
           let (fine, chains) := verify root inter x in
           check T fine 172 ;;; check T (Nat.eqb chains 1) 177) ;;;
        validate_loop root inter (Some x) r
    end.
  (** getCertificateChain.go:118-180 [validateCertChain].  The certificates are changed in
      place. *)
  Definition validate_chain (xs : list go_cert) : test T unit :=
    andthen T (remove ct_critical set_critical dice_critical 280 282 xs) (fun xs1 =>
    andthen T (remove ct_usages set_usages dice_usages 313 315 xs1) (fun xs2 =>
    andthen T (verify_options xs2) (fun o => validate_loop (fst o) (snd o) None xs2))).

  (** getCertificateChain.go:79-111. *)
  Fixpoint lint_loop (bad : bool) (zs : list Z) : test T unit :=
    match zs with
    | [] => done T tt
    | z :: r =>
        failed_times (lints z) 98 ;;;
        if orb bad (Nat.ltb 0 (lints z)) then stopped T 109 else lint_loop bad r
    end.
  (** getCertificateChain.go:30-115 [checkCertificateChain]; the filter of the linter's
      registry (line 49) does not fail. *)
  Definition check_chain (data : bytes) : test T unit :=
    match parse data with
    | None => stopped T 39
    | Some xs =>
        match zparse data with
        | None => failed T 45 ;;; lint_loop true []
        | Some zs => lint_loop false zs
        end ;;;
        validate_chain xs
    end.

  (** getCertificateChain.go:21-28 [TestGetCertificateChain]; [n] bounds the loop of the
      client (GoClient.v). *)
  Definition test_chain (n : nat) : test T unit := fun b =>
    let (r, t) := go_chain T (send (bn_locality T b)) c n (bn_device T b) in
    match r with
    | GoOk data => check_chain data
    | GoErr _ => stopped T 24
    | _ => crashed T
    end (set_device T t b).

  (** verification.go:56-58 and 236-244 for TestGetCertificateChain. *)
  Definition run_chain (n : nat) (b : bench T) : outcome * bench T :=
    if forallb (fun f => f sup) [gs_auto_init; gs_x509]
    then match test_chain n b with (_, cs, b1) => (Ran cs, b1) end
    else (Skipped, b).
End SuiteChain.
