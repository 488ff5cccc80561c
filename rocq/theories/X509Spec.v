(** X509Spec.v -- the ASN.1 values a DPE is meant to emit, as trees of DER values
    (Der.v): RFC 5280 certificates, RFC 2986 certification requests, RFC 5652
    SignedData, and the TCG DICE extensions.  Nothing here refers to the writer. *)
From Verif Require Import Base Types Env Der.
Open Scope N_scope.

(** ** Universal types *)

Definition SEQUENCE (l : list der) : der := Cons 0x30 l.
Definition SET (l : list der) : der := Cons 0x31 l.
Definition INTEGER (v : N) : der := Prim 0x02 (der_uint v).
Definition OCTETS (b : bytes) : der := Prim 0x04 b.
Definition TRUE : der := Prim 0x01 [0xFF].
Definition PRINTABLE (b : bytes) : der := Prim 0x13 b.
Definition UTF8 (b : bytes) : der := Prim 0x0C b.
Definition GENERALIZED_TIME (b : bytes) : der := Prim 0x18 b.
(** Context-specific tags: EXPLICIT or IMPLICIT constructed, IMPLICIT primitive. *)
Definition CTX (n : N) (l : list der) : der := Cons (0xA0 + n) l.
Definition CTX_PRIM (n : N) (b : bytes) : der := Prim (0x80 + n) b.
(** A BIT STRING with no unused bits: octets, or an encapsulated value. *)
Definition BITS (b : bytes) : der := Prim 0x03 (0 :: b).
Definition BITS_OF (d : der) : der := Wrap 0x03 [0] [d].
(** An OCTET STRING that holds an encoding. *)
Definition OCTETS_OF (d : der) : der := Wrap 0x04 [] [d].

(** OBJECT IDENTIFIER (X.690 8.19) from its arcs. *)
Fixpoint base128 (fuel : nat) (n : N) (last : bool) : bytes :=
  match fuel with
  | O => []
  | S f =>
      (if N.ltb n 128 then [] else base128 f (n / 128) false)
      ++ [N.modulo n 128 + (if last then 0 else 128)]
  end.
Definition oid_content (arcs : list N) : bytes :=
  match arcs with
  | a :: b :: r => base128 5 (40 * a + b) true ++ flat_map (fun x => base128 5 x true) r
  | _ => []
  end.
Definition OID (arcs : list N) : der := Prim 0x06 (oid_content arcs).

Definition id_ecdsa_with_SHA256 := [1; 2; 840; 10045; 4; 3; 2].
Definition id_ecdsa_with_SHA384 := [1; 2; 840; 10045; 4; 3; 3].
Definition id_ml_dsa_87 := [2; 16; 840; 1; 101; 3; 4; 3; 19].
Definition id_sha256 := [2; 16; 840; 1; 101; 3; 4; 2; 1].
Definition id_sha384 := [2; 16; 840; 1; 101; 3; 4; 2; 2].
Definition id_ecPublicKey := [1; 2; 840; 10045; 2; 1].
Definition id_prime256v1 := [1; 2; 840; 10045; 3; 1; 7].
Definition id_secp384r1 := [1; 3; 132; 0; 34].
Definition id_at_commonName := [2; 5; 4; 3].
Definition id_at_serialNumber := [2; 5; 4; 5].
Definition id_ce_subjectKeyIdentifier := [2; 5; 29; 14].
Definition id_ce_keyUsage := [2; 5; 29; 15].
Definition id_ce_subjectAltName := [2; 5; 29; 17].
Definition id_ce_basicConstraints := [2; 5; 29; 19].
Definition id_ce_authorityKeyIdentifier := [2; 5; 29; 35].
Definition id_ce_extKeyUsage := [2; 5; 29; 37].
Definition id_dice_MultiTcbInfo := [2; 23; 133; 5; 4; 5].
Definition id_dice_Ueid := [2; 23; 133; 5; 4; 4].
Definition id_dice_kp_attestLoc := [2; 23; 133; 5; 4; 100; 9].
Definition id_dice_kp_eca := [2; 23; 133; 5; 4; 100; 12].
Definition id_signedData := [1; 2; 840; 113549; 1; 7; 2].
Definition id_data := [1; 2; 840; 113549; 1; 7; 1].
Definition id_extensionRequest := [1; 2; 840; 113549; 1; 9; 14].

(** ** Algorithms, keys, signatures *)

Definition alg_id (oid : list N) : der := SEQUENCE [OID oid].
Definition sig_alg_oid (p : profile) : list N :=
  match p with
  | P256Sha256 => id_ecdsa_with_SHA256
  | P384Sha384 => id_ecdsa_with_SHA384
  | Mldsa87 => id_ml_dsa_87
  end.
Definition digest_oid (p : profile) : list N :=
  match p with P256Sha256 => id_sha256 | P384Sha384 | Mldsa87 => id_sha384 end.

(** RFC 5480 and RFC 9881 SubjectPublicKeyInfo. *)
Definition subject_public_key_info (k : pubkey) : der :=
  match k with
  | PkEcdsa256 x y =>
      SEQUENCE [SEQUENCE [OID id_ecPublicKey; OID id_prime256v1];
                BITS (0x04 :: to_buf 32 x ++ to_buf 32 y)]
  | PkEcdsa384 x y =>
      SEQUENCE [SEQUENCE [OID id_ecPublicKey; OID id_secp384r1];
                BITS (0x04 :: to_buf 48 x ++ to_buf 48 y)]
  | PkMldsa b => SEQUENCE [alg_id id_ml_dsa_87; BITS (to_buf (N.to_nat mldsa87_pk_size) b)]
  end.

(** ECDSA-Sig-Value (RFC 3279 2.2.3) or the raw ML-DSA signature. *)
Definition ecdsa_sig_value (r s : N) : der := SEQUENCE [INTEGER r; INTEGER s].
Definition signature_bits (g : signature) : der :=
  match g with
  | SigEcdsa256 r s => BITS_OF (ecdsa_sig_value (be_val (to_buf 32 r)) (be_val (to_buf 32 s)))
  | SigEcdsa384 r s => BITS_OF (ecdsa_sig_value (be_val (to_buf 48 r)) (be_val (to_buf 48 s)))
  | SigMldsa b => BITS (to_buf (N.to_nat mldsa87_sig_size) b)
  end.
Definition signature_octets (g : signature) : der :=
  match g with
  | SigEcdsa256 r s => OCTETS_OF (ecdsa_sig_value (be_val (to_buf 32 r)) (be_val (to_buf 32 s)))
  | SigEcdsa384 r s => OCTETS_OF (ecdsa_sig_value (be_val (to_buf 48 r)) (be_val (to_buf 48 s)))
  | SigMldsa b => OCTETS (to_buf (N.to_nat mldsa87_sig_size) b)
  end.

(** Keys and signatures of the instance's profile. *)
Definition key_of (p : profile) (k : pubkey) : Prop :=
  match p, k with
  | P256Sha256, PkEcdsa256 _ _ | P384Sha384, PkEcdsa384 _ _ | Mldsa87, PkMldsa _ => True
  | _, _ => False
  end.

(** ** Names *)

Definition rdn (oid : list N) (v : der) : der := SET [SEQUENCE [OID oid; v]].
Definition subject_name (cn serial : bytes) : der :=
  SEQUENCE [rdn id_at_commonName (PRINTABLE cn); rdn id_at_serialNumber (PRINTABLE serial)].

(** ** DICE TcbInfo (TCG DICE Attestation Architecture) *)

Definition fwid (p : profile) (digest : bytes) : der := SEQUENCE [OID (digest_oid p); OCTETS digest].

(** [svn] is the contents of the svn field, normally [der_uint (tci_svn t)]. *)
Definition tcb_info_with (svn : bytes) (p : profile) (recursive : bool) (t : tci) : der :=
  SEQUENCE
    ([ CTX_PRIM 3 svn;                                        (* svn *)
       CTX 6 [fwid p (tci_current t)];                        (* fwids *)
       CTX_PRIM 8 (be_bytes 4 (tci_locality t));              (* vendorInfo *)
       CTX_PRIM 9 (le_bytes 4 (tci_type t)) ]                 (* type *)
     ++ if recursive then
          [ CTX 11 [SEQUENCE [ CTX_PRIM 1 (der_uint 0);       (* integrityRegisters *)
                               CTX 2 [fwid p (tci_cumulative t)] ]] ]
        else []).
Definition tcb_info (p : profile) (recursive : bool) (t : tci) : der :=
  tcb_info_with (der_uint (tci_svn t)) p recursive t.

(** ** Extensions *)

Definition extension (oid : list N) (critical : bool) (v : der) : der :=
  SEQUENCE ([OID oid] ++ (if critical then [TRUE] else []) ++ [OCTETS_OF v]).

Definition ext_multi_tcb_info (critical : bool) (infos : list der) : der :=
  extension id_dice_MultiTcbInfo critical (SEQUENCE infos).
Definition ext_ueid (critical : bool) (ueid : bytes) : der :=
  extension id_dice_Ueid critical (SEQUENCE [OCTETS ueid]).
Definition ext_basic_constraints (ca : bool) : der :=
  extension id_ce_basicConstraints true (SEQUENCE (if ca then [TRUE] else [])).
(** digitalSignature, with keyCertSign for a CA; trailing zero bits are unused. *)
Definition ext_key_usage (ca : bool) : der :=
  extension id_ce_keyUsage true (Prim 0x03 (if ca then [2; 0x84] else [7; 0x80])).
Definition ext_extended_key_usage (ca : bool) : der :=
  extension id_ce_extKeyUsage true
    (SEQUENCE [OID (if ca then id_dice_kp_eca else id_dice_kp_attestLoc)]).
Definition ext_subject_key_identifier (kid : bytes) : der :=
  extension id_ce_subjectKeyIdentifier false (OCTETS kid).
Definition ext_authority_key_identifier (kid : bytes) : der :=
  extension id_ce_authorityKeyIdentifier false (SEQUENCE [CTX_PRIM 0 kid]).
(** The type-id of the OtherName is supplied already encoded. *)
Definition ext_subject_alt_name (o : other_name) : der :=
  extension id_ce_subjectAltName false
    (SEQUENCE [CTX 0 [Prim 0x06 (on_oid o); CTX 0 [UTF8 (on_value o)]]]).

(** What the extensions of one certificate are about. *)
Record ext_data := {
  xd_critical : bool;
  xd_ca : bool;
  xd_ueid : bytes;
  xd_ski : bytes;
  xd_aki : bytes;
  xd_san : option other_name
}.

Definition opt_san (o : option other_name) : list der :=
  match o with Some n => [ext_subject_alt_name n] | None => [] end.
Definition other_extensions (x509 : bool) (d : ext_data) : list der :=
  [ext_ueid (xd_critical d) (xd_ueid d); ext_basic_constraints (xd_ca d); ext_key_usage (xd_ca d);
   ext_extended_key_usage (xd_ca d)]
  ++ (if xd_ca d && x509 then [ext_subject_key_identifier (xd_ski d)] else [])
  ++ (if x509 then [ext_authority_key_identifier (xd_aki d)] else [])
  ++ opt_san (xd_san d).
Definition extensions (x509 : bool) (d : ext_data) (infos : list der) : der :=
  SEQUENCE (ext_multi_tcb_info (xd_critical d) infos :: other_extensions x509 d).

(** ** Certificates (RFC 5280 4.1) *)

Definition tbs_certificate (p : profile) (serial : N) (issuer subject : der) (v : cert_validity)
           (spki exts : der) : der :=
  SEQUENCE [ CTX 0 [INTEGER 2]; INTEGER serial; alg_id (sig_alg_oid p); issuer;
             SEQUENCE [GENERALIZED_TIME (cv_not_before v); GENERALIZED_TIME (cv_not_after v)];
             subject; spki; CTX 3 [exts] ].
Definition signed (p : profile) (payload : der) (g : signature) : der :=
  SEQUENCE [payload; alg_id (sig_alg_oid p); signature_bits g].

(** ** Certification requests (RFC 2986 4.1) *)

Definition certification_request_info (subject spki exts : der) : der :=
  SEQUENCE [ INTEGER 0; subject; spki;
             CTX 0 [SEQUENCE [OID id_extensionRequest; SET [exts]]] ].

(** ** SignedData (RFC 5652) *)

(** 5.3: issuerAndSerialNumber, or [0] IMPLICIT OCTET STRING. *)
Definition signer_id (s : signer_identifier) : der :=
  match s with
  | IssuerAndSerialNumber issuer serial => SEQUENCE [Opaque issuer; INTEGER (be_val serial)]
  | SubjectKeyIdentifier kid => CTX_PRIM 0 kid
  end.
Definition syntax_version (s : signer_identifier) : N :=
  match s with IssuerAndSerialNumber _ _ => 1 | SubjectKeyIdentifier _ => 3 end.
(** [sid]: the signer identifier as encoded. *)
Definition signer_info (p : profile) (v : N) (sid : der) (g : signature) : der :=
  SEQUENCE [ INTEGER v; sid; alg_id (digest_oid p); alg_id (sig_alg_oid p); signature_octets g ].
Definition signed_data (p : profile) (v : N) (csr sinfo : der) : der :=
  SEQUENCE [ INTEGER v; SET [alg_id (digest_oid p)];
             SEQUENCE [OID id_data; CTX 0 [OCTETS_OF csr]]; SET [sinfo] ].
Definition content_info (sd : der) : der := SEQUENCE [OID id_signedData; CTX 0 [sd]].
