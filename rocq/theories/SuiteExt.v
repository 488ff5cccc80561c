(** SuiteExt.v -- what the verification suite checks of the extensions of a certificate
    (verification/testing/certifyKey.go, certs.go).  asn1.Unmarshal and the hashes are
    parameters.  Complaints are known by their lines, as in Suite.v. *)
From Verif Require Import Base Errors Types StateOps Env Wire Instance Commands Response X509 X509Cert RustCrypto DefaultPlatform Simulator GoClient Suite SuiteChain.
Open Scope N_scope.

(** pkix.Extension. *)
Record go_ext := { ex_id : oid; ex_critical : bool; ex_value : bytes }.

(** certs.go:15-29. *)
Definition OidSubjectKeyIdentifier : oid := [2; 5; 29; 14].
Definition OidKeyUsage : oid := [2; 5; 29; 15].
Definition OidAuthorityKeyIdentifier : oid := [2; 5; 29; 35].
Definition OidBasicConstraints : oid := [2; 5; 29; 19].
Definition OidExtKeyUsage : oid := [2; 5; 29; 37].
Definition OidTcgDiceUeid : oid := [2; 23; 133; 5; 4; 4].
Definition OidTcgDiceMultiTcbInfo : oid := [2; 23; 133; 5; 4; 5].
Definition OidTcgDiceKpAttestLoc : oid := [2; 23; 133; 5; 4; 100; 9].
Definition OidTcgDiceKpEca : oid := [2; 23; 133; 5; 4; 100; 12].

(** asn1.Unmarshal of an extension's value into a variable: the variable after it, and
    whether there was no error.  IsCA; a key identifier, [None] if nil; the UEID; the usages;
    for each TcbInfo the numbers of its integrity registers; the bits of KeyUsage. *)
Record unmarshal := {
  un_constraints : bytes -> bool * bool;
  un_ski : bytes -> option bytes * bool;
  un_aki : bytes -> option bytes * bool;
  un_ueid : bytes -> option bytes * bool;
  un_usages : bytes -> list oid * bool;
  un_tcbs : bytes -> list (list N) * bool;
  un_bits : bytes -> list bool * bool
}.

(** The loop of certs.go:46-173, the same in each of the functions: the first extension with
    the identifier; an error if its criticality is not allowed; nothing, and no error, if
    there is none. *)
Fixpoint get_extension {A} (zero : A) (id : oid) (allowed : bool -> bool) (un : bytes -> A * bool) (l : list go_ext) : A * bool :=
  match l with
  | [] => (zero, true)
  | e :: r =>
      if same_oid (ex_id e) id
      then if allowed (ex_critical e) then un (ex_value e) else (zero, false)
      else get_extension zero id allowed un r
  end.

(** certs.go:166-171: bit [i] of the usage is bit [i] of the string, 0 after its end. *)
Fixpoint usage_of (n : nat) (i : N) (bits : list bool) : N :=
  match n with
  | O => 0
  | S n' => (if hd false bits then 2 ^ i else 0) + usage_of n' (i + 1) (tl bits)
  end.

(** certs.go:207-211, the end of getTcbInfoForHandle: of what getMultiTcbInfo read, the last
    element; [None] is its error. *)
Definition last_tcb {A} (l : list A) : option A :=
  if Nat.eqb (length l) 0 then None else nth_error l (length l - 1).

Section SuiteExt.
  Variable T : Type.
  Variable U : unmarshal.
  Variables sha256 sha384 : bytes -> bytes.
  Notation "m ;;; k" := (andthen T m (fun _ => k)) (at level 61, right associativity).

  (** certs.go:46-147. *)
  Definition get_tcbs (l : list go_ext) (critical : bool) := get_extension [] OidTcgDiceMultiTcbInfo (Bool.eqb critical) (un_tcbs U) l.
  Definition get_constraints (l : list go_ext) := get_extension false OidBasicConstraints (fun c => c) (un_constraints U) l.
  Definition get_ski (l : list go_ext) := get_extension None OidSubjectKeyIdentifier negb (un_ski U) l.
  Definition get_aki (l : list go_ext) := get_extension None OidAuthorityKeyIdentifier negb (un_aki U) l.
  Definition get_ueid (l : list go_ext) (critical : bool) := get_extension None OidTcgDiceUeid (Bool.eqb critical) (un_ueid U) l.
  Definition get_usages (l : list go_ext) := get_extension [] OidExtKeyUsage (fun c => c) (un_usages U) l.
  (** certs.go:149-173 [getKeyUsage]: 0 with an error. *)
  Definition get_key_usage (l : list go_ext) : N * bool :=
    let (bits, ok) := get_extension [] OidKeyUsage (fun c => c) (un_bits U) l in
    if ok then (usage_of 9 0 bits, true) else (0, false).

  (** certifyKey.go:322-334. *)
  Definition check_ueid (l : list go_ext) (label : bytes) (critical : bool) : test T unit :=
    let (u, ok) := get_ueid l critical in
    check T ok 327 ;;;
    check T (match u with Some v => same_handle v label | None => false end) 332.
  (** certifyKey.go:341-374. *)
  Definition check_usages (l : list go_ext) (ca : bool) : test T unit :=
    let (us, ok) := get_usages l in
    check T ok 346 ;;;
    check T (negb (Nat.eqb (length us) 0)) 350 ;;;
    check T (existsb (fun o => same_oid o (if ca then OidTcgDiceKpEca else OidTcgDiceKpAttestLoc)) us) 372.
  (** certifyKey.go:440-480; the key is what CertifyKey returned, [None] if nil. *)
  Definition check_ski (l : list go_ext) (ca : bool) (pub : option (bytes * bytes)) : test T unit :=
    let (ski, ok) := get_ski l in
    check T ok 445 ;;;
    if ca then
      check T (match ski with Some _ => true | None => false end) 449 ;;;
      match pub with
      | None => done T tt
      | Some (x, y) =>
          let expect (h : bytes) := check T (match ski with Some v => same_handle v (firstn 20 h) | None => false end) 475 in
          if Nat.eqb (length x) 32 then expect (sha256 ([4] ++ x ++ y))
          else if Nat.eqb (length x) 48 then expect (sha384 ([4] ++ x ++ y))
          else if Nat.eqb (length x) (N.to_nat 2592) then expect (sha384 x)
          else failed T 469
      end
    else check T (match ski with Some _ => false | None => true end) 478.
  (** certifyKey.go:486-499. *)
  Definition check_aki (l : list go_ext) (issuer_ski : option bytes) : test T unit :=
    let (aki, ok) := get_aki l in
    check T ok 491 ;;;
    match aki with
    | None => stopped T 494
    | Some k => check T (match issuer_ski with Some s => same_handle k s | None => false end) 497
    end.
  (** certifyKey.go:504-514. *)
  Definition check_constraints (l : list go_ext) (expected : bool) : test T unit :=
    let (ca, ok) := get_constraints l in
    check T ok 509 ;;;
    check T (negb (ca && negb expected)) 512.
  (** certifyKey.go:403-412. *)
  Fixpoint check_registers (l : list N) : test T unit :=
    match l with [] => done T tt | n :: r => check T (N.eqb n 0) 409 ;;; check_registers r end.
  Fixpoint check_tcbs (l : list (list N)) : test T unit :=
    match l with
    | [] => done T tt
    | t :: r => check T (negb (Nat.ltb 1 (length t))) 405 ;;; check_registers t ;;; check_tcbs r
    end.

  (** certifyKey.go:380-434 [checkCertificateExtension].  DigitalSignature is bit 0 and
      CertSign bit 5 of a KeyUsage. *)
  Definition check_extensions (l : list go_ext) (label : option bytes) (pub : option (bytes * bytes)) (x509 : bool) (issuer_ski : option bytes)
    (expected : bool) (critical : bool) : test T unit :=
    let (ca, ok) := get_constraints l in
    check T ok 385 ;;;
    check_constraints l expected ;;;
    check_usages l ca ;;;
    match label with Some v => check_ueid l v critical | None => done T tt end ;;;
    (if x509 then check_ski l ca pub ;;; check_aki l issuer_ski else done T tt) ;;;
    let (tcbs, ok1) := get_tcbs l critical in
    check T ok1 401 ;;;
    check_tcbs tcbs ;;;
    let (usage, ok2) := get_key_usage l in
    check T ok2 425 ;;;
    check T (N.eqb usage (if ca then 2 ^ 0 + 2 ^ 5 else 2 ^ 0)) 431.
End SuiteExt.
