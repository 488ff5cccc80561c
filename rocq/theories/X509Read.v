(** X509Read.v -- a verifier's view of a certificate or signed request: decode the
    bytes strictly, find the DICE MultiTcbInfo extension and read the measurements it
    reports.  Independent of the writer and of the trees of X509Spec.v (only the object
    identifiers are shared). *)
From Verif Require Import Base Types Der X509Spec.
Open Scope N_scope.

Definition obind {A B} (o : option A) (f : A -> option B) : option B :=
  match o with Some a => f a | None => None end.
Notation "'do' x <- m ; f" := (obind m (fun x => f)) (at level 200, x pattern, right associativity).

Definition guard (b : bool) : option unit := if b then Some tt else None.
Fixpoint all_some {A} (l : list (option A)) : option (list A) :=
  match l with
  | [] => Some []
  | Some a :: r => match all_some r with Some r' => Some (a :: r') | None => None end
  | None :: _ => None
  end.

(** Exactly one value, with nothing behind it. *)
Definition decode (b : bytes) : option der :=
  match parse (S (length b)) b with Some (t, []) => Some t | _ => None end.
Definition members (tag : N) (t : der) : option (list der) :=
  match t with Cons g ks => if N.eqb g tag then Some ks else None | _ => None end.
Definition contents (tag : N) (t : der) : option bytes :=
  match t with Prim g c => if N.eqb g tag then Some c else None | _ => None end.
Definition is_oid (arcs : list N) (t : der) : bool :=
  match t with Prim g c => N.eqb g 6 && bytes_eqb c (oid_content arcs) | _ => false end.

(** ** One measurement *)

Record entry := {
  en_svn : Z;
  en_digest : bytes;
  en_vendor : N;
  en_type : N;
  en_register : option (Z * bytes)
}.

(** FWID: the digest, whose algorithm must be the profile's. *)
Definition read_fwid (p : profile) (t : der) : option bytes :=
  do l <- members 0x30 t;
  match l with
  | [h; d] => do _ <- guard (is_oid (digest_oid p) h); contents 0x04 d
  | _ => None
  end.
Definition read_one (tag : N) (t : der) : option der :=
  do l <- members tag t; match l with [x] => Some x | _ => None end.
(** IntegrityRegister: registerNum [1], registerDigests [2]. *)
Definition read_register (p : profile) (t : der) : option (Z * bytes) :=
  do r <- read_one 0xAB t;
  do l <- members 0x30 r;
  match l with
  | [n; d] =>
      do n <- contents 0x81 n;
      do f <- read_one 0xA2 d;
      do d <- read_fwid p f;
      Some (signed_val n, d)
  | _ => None
  end.
(** DiceTcbInfo: svn [3], fwids [6], vendorInfo [8], type [9], integrityRegisters [11]. *)
Definition read_entry (p : profile) (t : der) : option entry :=
  do l <- members 0x30 t;
  match l with
  | svn :: fw :: vendor :: ty :: more =>
      do svn <- contents 0x83 svn;
      do fw <- read_one 0xA6 fw;
      do d <- read_fwid p fw;
      do vendor <- contents 0x88 vendor;
      do ty <- contents 0x89 ty;
      do _ <- guard (Nat.eqb (length vendor) 4 && Nat.eqb (length ty) 4);
      do reg <- match more with
                | [] => Some None
                | [r] => do x <- read_register p r; Some (Some x)
                | _ => None
                end;
      Some {| en_svn := signed_val svn; en_digest := d; en_vendor := be_val vendor;
              en_type := le_val ty; en_register := reg |}
  | _ => None
  end.

(** ** Extensions *)

(** The value of the only extension with the given identifier, and whether it is
    critical. *)
Definition find_ext (oid : list N) (exts : list der) : option (bool * bytes) :=
  match filter (fun e => match members 0x30 e with Some (o :: _) => is_oid oid o | _ => false end) exts with
  | [e] =>
      do l <- members 0x30 e;
      match l with
      | [_; v] => do b <- contents 0x04 v; Some (false, b)
      | [_; c; v] => do cb <- contents 0x01 c; do _ <- guard (bytes_eqb cb [255]); do b <- contents 0x04 v; Some (true, b)
      | _ => None
      end
  | _ => None
  end.
Definition read_infos (p : profile) (exts : list der) : option (bool * list entry) :=
  do cb <- find_ext id_dice_MultiTcbInfo exts;
  do t <- decode (snd cb);
  do l <- members 0x30 t;
  do es <- all_some (map (read_entry p) l);
  Some (fst cb, es).

(** ** Certificates and signed requests *)

Definition is_alg (arcs : list N) (t : der) : bool :=
  match read_one 0x30 t with Some o => is_oid arcs o | None => false end.
Definition is_int (v : N) (t : der) : bool :=
  match t with Prim g c => N.eqb g 2 && bytes_eqb c (der_uint v) | _ => false end.

(** The members of the signed part, which is the first of three; the second is the
    signature algorithm of the profile. *)
Definition signed_members (p : profile) (b : bytes) : option (list der) :=
  do t <- decode b;
  do l <- members 0x30 t;
  match l with
  | [x; a; _] => do _ <- guard (is_alg (sig_alg_oid p) a); members 0x30 x
  | _ => None
  end.
(** TBSCertificate of version 3: the third member repeats the signature algorithm,
    the extensions are the eighth and the last. *)
Definition certificate_exts (p : profile) (b : bytes) : option (list der) :=
  do m <- signed_members p b;
  match m with
  | [v; _; a; _; _; _; _; x] =>
      do v <- read_one 0xA0 v;
      do _ <- guard (is_int 2 v && is_alg (sig_alg_oid p) a);
      do e <- read_one 0xA3 x;
      members 0x30 e
  | _ => None
  end.
Definition read_certificate (p : profile) (b : bytes) : option (bool * list entry) :=
  do exts <- certificate_exts p b; read_infos p exts.

(** ContentInfo, SignedData, EncapsulatedContentInfo: the octets of the content. *)
Definition read_content (b : bytes) : option bytes :=
  do t <- decode b;
  do l <- members 0x30 t;
  match l with
  | [o; c] =>
      do _ <- guard (is_oid id_signedData o);
      do sd <- read_one 0xA0 c;
      do m <- members 0x30 sd;
      match m with
      | [_; _; ec; _] =>
          do em <- members 0x30 ec;
          match em with
          | [o'; c'] => do _ <- guard (is_oid id_data o'); do v <- read_one 0xA0 c'; contents 0x04 v
          | _ => None
          end
      | _ => None
      end
  | _ => None
  end.
(** RFC 5652 5.1, 5.3: version 1 if the signer is named by issuer and serial number,
    version 3 if by a key identifier. *)
Definition sid_version (sid : der) : option N :=
  match sid with
  | Cons g _ => if N.eqb g 0x30 then Some 1 else None
  | Prim g _ => if N.eqb g 0x80 then Some 3 else None
  | _ => None
  end.
(** The only SignerInfo, whose algorithms must be the profile's and whose versions
    must fit: the encoded signer identifier and the signature. *)
Definition read_signer (p : profile) (b : bytes) : option (bytes * der) :=
  do t <- decode b;
  do l <- members 0x30 t;
  match l with
  | [_; c] =>
      do sd <- read_one 0xA0 c;
      do m <- members 0x30 sd;
      match m with
      | [v; das; _; ss] =>
          do dal <- read_one 0x31 das;
          do si <- read_one 0x31 ss;
          do f <- members 0x30 si;
          match f with
          | [v'; sid; da; sa; g] =>
              do n <- sid_version sid;
              do _ <- guard (is_int n v && is_int n v' && is_alg (digest_oid p) dal && is_alg (digest_oid p) da
                             && is_alg (sig_alg_oid p) sa);
              Some (enc sid, g)
          | _ => None
          end
      | _ => None
      end
  | _ => None
  end.
(** CertificationRequestInfo of version 1: the attributes are the fourth member and
    the last; the extension request is the only one. *)
Definition csr_exts (p : profile) (b : bytes) : option (list der) :=
  do m <- signed_members p b;
  match m with
  | [v; _; _; x] =>
      do _ <- guard (is_int 0 v);
      do at_ <- read_one 0xA0 x;
      do am <- members 0x30 at_;
      match am with
      | [o; vs] =>
          do _ <- guard (is_oid id_extensionRequest o);
          do e <- read_one 0x31 vs;
          members 0x30 e
      | _ => None
      end
  | _ => None
  end.
Definition read_csr (p : profile) (b : bytes) : option (bool * list entry) :=
  do exts <- csr_exts p b; read_infos p exts.
Definition read_request (p : profile) (b : bytes) : option (bool * list entry) :=
  do c <- read_content b; read_csr p c.

(** Who a SignerIdentifier names: an encoded name and a serial number, or the key
    with an identifier. *)
Inductive signer :=
| ByIssuer (name : bytes) (serial : Z)
| ByKey (kid : bytes).
Definition read_sid (b : bytes) : option signer :=
  do t <- decode b;
  match t with
  | Cons g [i; n] => do _ <- guard (N.eqb g 0x30); do n <- contents 0x02 n; Some (ByIssuer (enc i) (signed_val n))
  | Prim g kid => do _ <- guard (N.eqb g 0x80); Some (ByKey kid)
  | _ => None
  end.

(** What a context reports: its current measurement and SVN, the locality it was
    derived in, its type, and the cumulative measurement if the DPE supports
    recursive derivation. *)
Definition reported (recursive : bool) (c : context) : entry :=
  {| en_svn := Z.of_N (tci_svn (c_tci c)); en_digest := tci_current (c_tci c);
     en_vendor := tci_locality (c_tci c); en_type := tci_type (c_tci c);
     en_register := if recursive then Some (0%Z, tci_cumulative (c_tci c)) else None |}.

(** ** Keys, names and the other extensions *)

(** SubjectPublicKeyInfo of the profile: the coordinates of an uncompressed point, or
    the ML-DSA public key. *)
Definition read_key (p : profile) (t : der) : option bytes :=
  do l <- members 0x30 t;
  match l with
  | [alg; bits] =>
      do al <- members 0x30 alg;
      do b <- contents 0x03 bits;
      match p, al, b with
      | P256Sha256, [o; c], 0 :: 4 :: k =>
          do _ <- guard (is_oid id_ecPublicKey o && is_oid id_prime256v1 c && Nat.eqb (length k) 64); Some k
      | P384Sha384, [o; c], 0 :: 4 :: k =>
          do _ <- guard (is_oid id_ecPublicKey o && is_oid id_secp384r1 c && Nat.eqb (length k) 96); Some k
      | Mldsa87, [o], 0 :: k => do _ <- guard (is_oid id_ml_dsa_87 o && Nat.eqb (length k) 2592); Some k
      | _, _, _ => None
      end
  | _ => None
  end.
(** A name of a common name and a serial number. *)
Definition read_rdn (oid : list N) (t : der) : option bytes :=
  do x <- read_one 0x31 t;
  do l <- members 0x30 x;
  match l with [o; v] => do _ <- guard (is_oid oid o); contents 0x13 v | _ => None end.
Definition read_name (t : der) : option (bytes * bytes) :=
  do l <- members 0x30 t;
  match l with
  | [cn; sn] => do cn <- read_rdn id_at_commonName cn; do sn <- read_rdn id_at_serialNumber sn; Some (cn, sn)
  | _ => None
  end.
(** The value of an extension, with its criticality. *)
Definition read_ext (oid : list N) (exts : list der) : option (bool * der) :=
  do cb <- find_ext oid exts; do t <- decode (snd cb); Some (fst cb, t).
Definition critical (o : option (bool * der)) : option der :=
  do ct <- o; do _ <- guard (fst ct); Some (snd ct).
Definition read_ueid (exts : list der) : option (bool * bytes) :=
  do ct <- read_ext id_dice_Ueid exts; do x <- read_one 0x30 (snd ct); do b <- contents 0x04 x; Some (fst ct, b).
Definition read_ca (exts : list der) : option bool :=
  do t <- critical (read_ext id_ce_basicConstraints exts);
  do l <- members 0x30 t;
  match l with
  | [] => Some false
  | [x] => do b <- contents 0x01 x; do _ <- guard (bytes_eqb b [255]); Some true
  | _ => None
  end.
(** The named bits of a BIT STRING: the first octet counts the unused bits. *)
Definition read_usage (exts : list der) : option bytes :=
  do t <- critical (read_ext id_ce_keyUsage exts); contents 0x03 t.
Definition read_purpose (exts : list der) : option bytes :=
  do t <- critical (read_ext id_ce_extKeyUsage exts); do x <- read_one 0x30 t; contents 0x06 x.
Definition read_authority (exts : list der) : option bytes :=
  do ct <- read_ext id_ce_authorityKeyIdentifier exts; do x <- read_one 0x30 (snd ct); contents 0x80 x.
Definition read_key_id (exts : list der) : option bytes :=
  do ct <- read_ext id_ce_subjectKeyIdentifier exts; contents 0x04 (snd ct).

(** What a certificate or request says about the key it certifies. *)
Record facts := {
  fa_name : bytes * bytes;
  fa_key : bytes;
  fa_ueid : bytes;
  fa_ca : bool;
  fa_usage : bytes;
  fa_purpose : bytes
}.
Definition read_facts (p : profile) (name key : der) (exts : list der) : option facts :=
  do n <- read_name name;
  do k <- read_key p key;
  do u <- read_ueid exts;
  do ca <- read_ca exts;
  do us <- read_usage exts;
  do pu <- read_purpose exts;
  Some {| fa_name := n; fa_key := k; fa_ueid := snd u; fa_ca := ca; fa_usage := us; fa_purpose := pu |}.
(** TBSCertificate: the subject is the sixth member, its key the seventh. *)
Definition certificate_facts (p : profile) (b : bytes) : option facts :=
  do m <- signed_members p b;
  do exts <- certificate_exts p b;
  match m with [_; _; _; _; _; n; k; _] => read_facts p n k exts | _ => None end.
(** CertificationRequestInfo: the second and the third. *)
Definition csr_facts (p : profile) (b : bytes) : option facts :=
  do m <- signed_members p b;
  do exts <- csr_exts p b;
  match m with [_; n; k; _] => read_facts p n k exts | _ => None end.
Definition request_facts (p : profile) (b : bytes) : option facts :=
  do c <- read_content b; csr_facts p c.

(** Who issued a certificate: its serial number, the encoded issuer name, the
    validity period, the authority key identifier and the subject key identifier. *)
Record issue := {
  is_serial : Z;
  is_issuer : bytes;
  is_validity : bytes * bytes;
  is_authority : bytes;
  is_key_id : option bytes
}.
Definition read_issue (p : profile) (b : bytes) : option issue :=
  do m <- signed_members p b;
  do exts <- certificate_exts p b;
  match m with
  | [_; sn; _; i; v; _; _; _] =>
      do sn <- contents 0x02 sn;
      do l <- members 0x30 v;
      match l with
      | [nb; na] =>
          do nb <- contents 0x18 nb;
          do na <- contents 0x18 na;
          do a <- read_authority exts;
          Some {| is_serial := signed_val sn; is_issuer := enc i; is_validity := (nb, na); is_authority := a;
                  is_key_id := read_key_id exts |}
      | _ => None
      end
  | _ => None
  end.
