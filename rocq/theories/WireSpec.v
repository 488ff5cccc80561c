(** WireSpec.v -- vocabulary for the statements about wire formats, status codes
    and response buffers. *)
From Verif Require Import Base Errors Types Env Wire Commands Response RespBuf Spec History.
Local Open Scope nat_scope.

(** ** Commands *)

(** Commands that belong to the instance's profile: key-related commands exist
    in one layout per profile; bit 0 of the ML-DSA sign flags selects the raw
    layout, whose message length is limited. *)
Definition for_profile (cf : config) (c : command) : Prop :=
  match c with
  | CmdCertifyKey (CertifyP256 _) | CmdSign (SignP256 _) => prof cf = P256Sha256
  | CmdCertifyKey (CertifyP384 _) | CmdSign (SignP384 _) => prof cf = P384Sha384
  | CmdCertifyKey (CertifyMldsa87 _) => prof cf = Mldsa87
  | CmdSign (SignMldsa87 c) => prof cf = Mldsa87 /\ N.testbit (sg_flags c) 0 = false
  | CmdSign (SignMldsa87Raw c) =>
      prof cf = Mldsa87 /\ N.testbit (sr_flags c) 0 = true /\ (sr_size c <= 1024)%N
  | _ => True
  end.

(** The fields of a command's body. *)
Definition command_fields (c : command) : list bytes :=
  match c with
  | CmdGetProfile => []
  | CmdInitCtx f => [le_bytes 4 f]
  | CmdDeriveContext d =>
      [dc_handle d; dc_data d; le_bytes 4 (dc_flags d); le_bytes 4 (dc_tci_type d);
       le_bytes 4 (dc_target_locality d); le_bytes 4 (dc_svn d)]
  | CmdCertifyKey (CertifyP256 c) | CmdCertifyKey (CertifyP384 c) | CmdCertifyKey (CertifyMldsa87 c) =>
      [ck_handle c; le_bytes 4 (ck_flags c); le_bytes 4 (ck_format c); ck_label c]
  | CmdSign (SignP256 c) | CmdSign (SignP384 c) | CmdSign (SignMldsa87 c) =>
      [sg_handle c; sg_label c; le_bytes 4 (sg_flags c); sg_digest c]
  | CmdSign (SignMldsa87Raw c) =>
      [sr_handle c; sr_label c; le_bytes 4 (sr_flags c); le_bytes 4 (sr_size c); sr_raw c]
  | CmdRotateCtx h f => [h; le_bytes 4 f]
  | CmdDestroyCtx h => [h]
  | CmdGetCertificateChain o s => [le_bytes 4 o; le_bytes 4 s]
  | CmdUpdateContextMeasurement u =>
      [uc_parent_handle u; uc_data u; le_bytes 4 (uc_reserved u); le_bytes 4 (uc_tci_type u);
       le_bytes 4 (uc_reserved_svn u)]
  end.

(** The command identifiers of the DPE profile, the profile words, and the bytes
    of a request: "DPEC" (as a big-endian number, stored little endian), the
    identifier, the profile word, the fields. *)
Definition request_id (c : command) : N :=
  match c with
  | CmdGetProfile => 1 | CmdInitCtx _ => 7 | CmdDeriveContext _ => 8 | CmdCertifyKey _ => 9
  | CmdSign _ => 10 | CmdRotateCtx _ _ => 14 | CmdDestroyCtx _ => 15
  | CmdGetCertificateChain _ _ => 16 | CmdUpdateContextMeasurement _ => 2147483648
  end%N.
Definition own_profile (cf : config) : N :=
  match prof cf with P256Sha256 => 3 | P384Sha384 => 4 | Mldsa87 => 5 end%N.
Definition request (c : command) (p : N) : bytes :=
  [67; 69; 80; 68]%N ++ le_bytes 4 (request_id c) ++ le_bytes 4 p ++ concat (command_fields c).

(** [b] asks for [c]: it starts with the bytes of that request; the profile word
    is the instance's own, but GetProfile may carry any. *)
Definition request_of (cf : config) (c : command) (b : bytes) : Prop :=
  command_wf cf c /\ for_profile cf c /\
  exists p rest, b = request c p ++ rest /\ u32 p /\ (c = CmdGetProfile \/ p = own_profile cf).

(** All identifiers. *)
Definition known_id (id : N) : Prop :=
  In id [1; 7; 8; 9; 10; 14; 15; 16; 2147483648]%N.

(** A request that starts with "DPEC" (as a big-endian number, stored little
    endian), the command identifier and a profile word, which must be the
    instance's own except for GetProfile (identifier 1). *)
Definition good_header (cf : config) (b : bytes) (id : N) : Prop :=
  exists p rest,
    b = [67; 69; 80; 68]%N ++ le_bytes 4 id ++ le_bytes 4 p ++ rest /\ u32 id /\ u32 p /\
    (id <> 1%N -> p = own_profile cf).

(** ** Status codes *)

(** Errors that differ at most in details that status codes do not carry: which
    internal error, and the vendor code inside a back-end error. *)
Definition same_error (a b : dpe_error) : Prop :=
  a = b \/
  match a, b with
  | InternalError _, InternalError _ => True
  | PlatformErr x, PlatformErr y =>
      match x, y with
      | PEIssuerName _, PEIssuerName _ | PEPrint _, PEPrint _ | PESerialNumber _, PESerialNumber _
      | PESubjectKeyIdentifier _, PESubjectKeyIdentifier _ | PECertValidity _, PECertValidity _
      | PEIssuerKeyIdentifier _, PEIssuerKeyIdentifier _
      | PESubjectAlternativeName _, PESubjectAlternativeName _ => True
      | _, _ => False
      end
  | CryptoErr x, CryptoErr y =>
      match x, y with
      | CEAbstractionLayer _, CEAbstractionLayer _ | CECryptoLib _, CECryptoLib _
      | CEHash _, CEHash _ => True
      | _, _ => False
      end
  | _, _ => False
  end.

(** ** Responses *)

(** Values the response structures can hold. *)
Definition hdr_wf (cf : config) (h : response_hdr) : Prop :=
  u32 (rh_magic h) /\ u32 (rh_status h) /\
  match rh_profile h with
  | P256Sha256 => feat_p256 cf | P384Sha384 => feat_p384 cf | Mldsa87 => feat_mldsa cf
  end = true.
Definition response_hdr_of (r : response) : response_hdr :=
  match r with
  | RespGetProfile h _ _ _ _ _ _ | RespInitCtx h _ | RespDeriveContext h _ _
  | RespExportedCdi h _ _ _ _ _ | RespRotateCtx h _ | RespCertifyKey _ h _ _ _ _
  | RespSign _ h _ _ | RespDestroyCtx h | RespCertificateChain h _ _ | RespUpdate h _ _
  | RespError h => h
  end.

(** [r] is a value of the response type that answers [cmd]. *)
Definition answers (cf : config) (cmd : command) (r : response) : Prop :=
  hdr_wf cf (response_hdr_of r) /\
  match cmd, r with
  | CmdGetProfile, RespGetProfile _ ma mi vi vs mt fl =>
      (ma < 2 ^ 16 /\ mi < 2 ^ 16)%N /\ u32 vi /\ u32 vs /\ u32 mt /\ u32 fl
  | CmdInitCtx _, RespInitCtx _ x | CmdRotateCtx _ _, RespRotateCtx _ x => byte_string 16 x
  | CmdDeriveContext d, RespDeriveContext _ x y =>
      N.testbit (dc_flags d) 23 = false /\ byte_string 16 x /\ byte_string 16 y
  | CmdDeriveContext d, RespExportedCdi _ x y cdi n cert =>
      N.testbit (dc_flags d) 23 = true /\ byte_string 16 x /\ byte_string 16 y /\ byte_string 32 cdi /\
      u32 n /\ byte_string (N.to_nat (max_cert_size cf)) cert
  | CmdCertifyKey c, RespCertifyKey p _ x pk n cert =>
      p = certify_profile c /\ byte_string 16 x /\
      byte_string (match p with P256Sha256 => 64 | P384Sha384 => 96 | Mldsa87 => N.to_nat 2592 end) pk /\
      u32 n /\ byte_string (N.to_nat (max_cert_size cf)) cert
  | CmdSign c, RespSign p _ x sg =>
      p = sign_profile c /\ byte_string 16 x /\
      byte_string (match p with P256Sha256 => 64 | P384Sha384 => 96 | Mldsa87 => N.to_nat 4628 end) sg
  | CmdDestroyCtx _, RespDestroyCtx _ => True
  | CmdGetCertificateChain _ _, RespCertificateChain _ n chunk => u32 n /\ byte_string (N.to_nat 2048) chunk
  | CmdUpdateContextMeasurement _, RespUpdate _ x y => byte_string 16 x /\ byte_string 16 y
  | _, _ => False
  end.

(** The size of that type. *)
Definition wire_size (cf : config) (cmd : command) : N :=
  match cmd with
  | CmdGetProfile => 32
  | CmdInitCtx _ | CmdRotateCtx _ _ => 28
  | CmdDeriveContext d => if N.testbit (dc_flags d) 23 then 80 + max_cert_size cf else 44
  | CmdCertifyKey c =>
      match certify_profile c with P256Sha256 => 96 | P384Sha384 => 128 | Mldsa87 => 2624 end + max_cert_size cf
  | CmdSign c => match sign_profile c with P256Sha256 => 92 | P384Sha384 => 124 | Mldsa87 => 4656 end
  | CmdDestroyCtx _ => 12
  | CmdGetCertificateChain _ _ => 2064
  | CmdUpdateContextMeasurement _ => 44
  end%N.

(** The certificate area of a response and the number of its bytes in use. *)
Definition cert_area (r : response) : option (N * bytes) :=
  match r with
  | RespExportedCdi _ _ _ _ n cert | RespCertifyKey _ _ _ _ n cert => Some (n, cert)
  | _ => None
  end.

(** [r] with every certificate byte that is not in use set to zero. *)
Definition trim (r : response) : response :=
  let t n (cert : bytes) := firstn (N.to_nat n) cert ++ repeat 0%N (length cert - N.to_nat n) in
  match r with
  | RespExportedCdi h x y cdi n cert => RespExportedCdi h x y cdi n (t n cert)
  | RespCertifyKey p h x pk n cert => RespCertifyKey p h x pk n (t n cert)
  | _ => r
  end.

(** A certificate writer that leaves the size of the buffer it is given alone and,
    when it succeeds for a well-formed state and a device identity made of bytes,
    writes bytes.  [X509Sane.v] shows that the modelled writer is one. *)
Definition sane_writer (cf : config) {C P : Type}
  (cg : cert_kind -> cert_args -> nat -> state -> C -> P -> bytes -> result cert_result * C * P * bytes) : Prop :=
  forall k a off s c p out r c' p' out', cg k a off s c p out = (r, c', p', out') ->
    length out' = length out /\
    forall cr, r = Ok cr -> wf cf s -> all_bytes (ca_ueid a) -> all_bytes out -> all_bytes out'.

(** ** Response buffers *)

(** The storage behind a buffer and the position in it of the buffer's byte 0. *)
Fixpoint backing (r : rbuf) : bytes :=
  match r with Slice b => b | View _ r' => backing r' end.
Fixpoint origin (r : rbuf) : N :=
  match r with Slice _ => 0 | View base r' => base + origin r' end.

(** The same buffer over different storage. *)
Fixpoint rebacked (r : rbuf) (b : bytes) : rbuf :=
  match r with Slice _ => Slice b | View base r' => View base (rebacked r' b) end.
