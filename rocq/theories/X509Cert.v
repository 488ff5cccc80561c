(** X509Cert.v -- creating a certificate or CSR for a context
    (dpe/src/x509.rs:2470-2816): key derivation, names, key identifiers,
    platform data, and running the writer of X509.v on the response buffer.
    [x509_gen] is the value of the parameter [cert_gen] of Commands.v. *)
From Verif Require Import Base Errors Types StateOps Env Wire Instance Commands X509.
Open Scope N_scope.
Open Scope dpe_scope.

(** platform/src/lib.rs:19-28: MAX_ISSUER_NAME_SIZE (without the feature
    arbitrary_issuer_name_size), MAX_SN_SIZE, MAX_KEY_IDENTIFIER_SIZE,
    MAX_VALIDITY_SIZE, MAX_OTHER_NAME_SIZE; x509.rs:65 MAX_HASH_SIZE;
    crypto/src/lib.rs MAX_EXPORTED_CDI_SIZE. *)
Definition max_issuer_name_size : nat := 128%nat.
Definition max_sn_size : nat := 20%nat.
Definition max_key_identifier_size : nat := 20%nat.
Definition max_validity_size : nat := 24%nat.
Definition max_other_name_size : nat := 128%nat.
Definition max_hash_size : nat := 48%nat.
Definition max_exported_cdi_size : nat := 32%nat.

(** An [ArrayVec<u8, n>] the platform returns: at most [n] bytes. *)
Definition to_vec (n : nat) (l : bytes) : bytes := map (fun b => N.modulo b 256) (firstn n l).

(** platform/src/lib.rs:55-79: the capacities of the returned values.  The
    OID of an OtherName is an unbounded [&'static [u8]]. *)
Definition cap_sid (s : signer_identifier) : signer_identifier :=
  match s with
  | IssuerAndSerialNumber issuer serial =>
      IssuerAndSerialNumber (to_vec max_issuer_name_size issuer) (to_vec max_sn_size serial)
  | SubjectKeyIdentifier kid => SubjectKeyIdentifier (to_vec max_key_identifier_size kid)
  end.
Definition cap_other_name (o : other_name) : other_name :=
  {| on_oid := to_vec (length (on_oid o)) (on_oid o);
     on_value := to_vec max_other_name_size (on_value o) |}.
Definition cap_validity (v : cert_validity) : cert_validity :=
  {| cv_not_before := to_vec max_validity_size (cv_not_before v);
     cv_not_after := to_vec max_validity_size (cv_not_after v) |}.

(** crypto/src/lib.rs:232 HEX_CHARS, indexed by a nibble. *)
Definition hex_char (n : N) : N := if N.ltb n 10 then 48 + n else 55 + n.

(** crypto/src/lib.rs:233-242, the characters written; [b >> 4] and [b & 0xF]
    of a byte are below 16, so the index checks never fail. *)
Definition hex_of (l : bytes) : bytes :=
  flat_map (fun b => [hex_char (N.div b 16); hex_char (N.modulo b 16)]) l.

(** crypto/src/lib.rs:225-244 [Digest::write_hex_str] into [dst]. *)
Definition write_hex_str (d : digest) (dst : bytes) : result bytes :=
  let src := digest_bytes d in
  if Nat.ltb (length dst) (length src * 2) then Err (CryptoErr CESize)
  else Ok (hex_of src ++ skipn (length src * 2) dst).

(** x509.rs:2492-2495 *)
Definition str_dpe_leaf : bytes := [68; 80; 69; 32; 76; 101; 97; 102].
Definition str_dpe_exported : bytes :=
  [68; 80; 69; 32; 69; 120; 112; 111; 114; 116; 101; 100; 32; 67; 68; 73].

Definition kind_exported (k : cert_kind) : bool :=
  match k with KindExported => true | _ => false end.
Definition kind_csr (k : cert_kind) : bool := match k with KindCsr => true | _ => false end.

Section Create.
  Variable cf : config.
  Variables C P : Type.
  Variable co : crypto_ops C.
  Variable po : platform_ops P.
  Notation M := (M C P).

  (** Sequencing back end calls that return [Result<_, CryptoError>]. *)
  Definition cseq {A B} (m : C -> (A + crypto_error) * C) (f : A -> C -> (B + crypto_error) * C)
    : C -> (B + crypto_error) * C := fun c =>
    match m c with (inl a, c') => f a c' | (inr e, c') => (inr e, c') end.

  (** crypto/src/lib.rs:686-695 and 516-518: [derive_pub_key] of Crypto and
      CdiManager (default methods). *)
  Definition derive_pub_key (d : digest) (cdi_label key_label ctx : bytes) :=
    cseq (co_derive_cdi co d cdi_label) (fun _ =>
    cseq (co_derive_key_pair co key_label ctx) (fun _ => co_signer_public_key co)).

  (** crypto/src/lib.rs:666-676 and 501-508: [sign_with_derived]. *)
  Definition sign_with_derived (d : digest) (cdi_label key_label ctx : bytes) (data : sign_data) :=
    cseq (co_derive_cdi co d cdi_label) (fun _ =>
    cseq (co_derive_key_pair co key_label ctx) (fun _ => co_signer_sign co data)).

  (** x509.rs:2684-2695: the public key, and the exported CDI handle. *)
  Definition derive_subject_key (k : cert_kind) (a : cert_args) (d : digest)
    : M (pubkey * option bytes) :=
    if kind_exported k then
      let! h0 := crypto (co_derive_exported_cdi co d (ca_cdi_label a)) in
      let h := to_buf max_exported_cdi_size h0 in
      crypto (co_derive_key_pair_exported co h (ca_key_label a) (ca_context a)) ;;
      let! pk := crypto (co_signer_public_key co) in
      ret (pk, Some h)
    else
      let! pk := crypto (derive_pub_key d (ca_cdi_label a) (ca_key_label a) (ca_context a)) in
      ret (pk, None).

  (** The hash of an uncompressed point or of an ML-DSA key, as computed by
      crypto/src/lib.rs:446-453 and x509.rs:2510-2517. *)
  Definition hash_pubkey (pk : pubkey) : M digest :=
    match ecdsa_pub pk, pk with
    | Some (_, x, y), _ => hash_all C P co [[0x04]; x; y]
    | None, PkMldsa b => hash_all C P co [mldsa_pub b]
    | None, _ => fail (CryptoErr CEMismatchedAlgorithm)
    end.

  Definition alg_matches (s : sig_alg) (pk : pubkey) : bool :=
    match s, pk with
    | AlgMldsa87, PkMldsa _ => true
    | AlgEcdsa256, (PkEcdsa256 _ _ | PkEcdsa384 _ _) => true
    | AlgEcdsa384, (PkEcdsa256 _ _ | PkEcdsa384 _ _) => true
    | _, _ => false
    end.

  (** crypto/src/lib.rs:435-459 [get_pubkey_serial] (default method). *)
  Definition get_pubkey_serial (pk : pubkey) (serial : bytes) : M bytes :=
    let! size := (fun w => (Ok (digest_alg_size (co_digest_algorithm co (w_c w))), w)) in
    if Nat.ltb (length serial) (size * 2) then fail (CryptoErr CESize)
    else
      let! alg := (fun w => (Ok (co_signature_algorithm co (w_c w)), w)) in
      if negb (alg_matches alg pk) then fail (CryptoErr CEMismatchedAlgorithm)
      else
        let! d := hash_pubkey pk in
        lift (write_hex_str d serial).

  (** x509.rs:2481-2502 [get_subject_name]; the slice [..64] is within the 96
      byte buffer. *)
  Definition get_subject_name (k : cert_kind) (pk : pubkey) : M name :=
    let! serial := get_pubkey_serial pk (repeat 0 (max_hash_size * 2)) in
    ret {| nm_cn := PrintableString (if kind_exported k then str_dpe_exported else str_dpe_leaf);
           nm_serial := PrintableString (firstn 64 serial) |}.

  (** x509.rs:2504-2524 [get_subject_key_identifier]. *)
  Definition get_subject_key_identifier (pk : pubkey) : M bytes :=
    let! d := hash_pubkey pk in
    if Nat.ltb (length (digest_bytes d)) max_key_identifier_size
    then fail (InternalError KeyIdHashTooSmall)
    else ret (firstn max_key_identifier_size (digest_bytes d)).

  (** x509.rs:2713-2714. *)
  Definition get_authority_key_identifier : M bytes := fun w =>
    match po_issuer_key_identifier po (repeat 0 max_key_identifier_size) (w_p w) with
    | (inl _, b, p) =>
        (Ok (to_buf max_key_identifier_size b), mkWorld (w_st w) (w_c w) p (w_out w))
    | (inr e, _, p) => (Err (PlatformErr e), mkWorld (w_st w) (w_c w) p (w_out w))
    end.

  (** x509.rs:2716-2720. *)
  Definition get_subject_alt_name : M (option other_name) := fun w =>
    match po_subject_alt_name po (w_p w) with
    | (inl o, p) => (Ok (Some (cap_other_name o)), mkWorld (w_st w) (w_c w) p (w_out w))
    | (inr PENotImplemented, p) => (Ok None, mkWorld (w_st w) (w_c w) p (w_out w))
    | (inr e, p) => (Err (PlatformErr e), mkWorld (w_st w) (w_c w) p (w_out w))
    end.

  (** x509.rs:2775-2781. *)
  Definition get_issuer_name : M bytes := fun w =>
    match po_issuer_name po (repeat 0 max_issuer_name_size) (w_p w) with
    | (inl n, b, p) =>
        (if N.ltb (N.of_nat max_issuer_name_size) n then Err (InternalError IssuerNameTooLong)
         else Ok (firstn (N.to_nat n) (to_buf max_issuer_name_size b)),
         mkWorld (w_st w) (w_c w) p (w_out w))
    | (inr e, _, p) => (Err (PlatformErr e), mkWorld (w_st w) (w_c w) p (w_out w))
    end.

  (** [Iterator::count] on the child-to-root iterator; errors count as items. *)
  Fixpoint iter_count (n : nat) (l : list context) (it : ctr_iter) : result nat :=
    match n with
    | O => Crash CrashFuel
    | S n' =>
        match iter_next cf l it with
        | (None, _) => Ok 0%nat
        | (Some (Crash k), _) => Crash k
        | (Some _, it') => rbind (iter_count n' l it') (fun m => Ok (S m))
        end
    end.

  (** x509.rs:117-127 [TciNodes::new]. *)
  Definition tci_nodes_new (start : nat) (l : list context) : result unit :=
    rbind (iter_new cf start l) (fun it =>
    rbind (iter_count (fuel cf) l it) (fun n =>
      if Nat.ltb (max_handles cf) n then Err (InternalError TciNodeCountExceeded) else Ok tt)).

  (** x509.rs:2745-2768: the signing callback. *)
  Definition sign_cb (k : cert_kind) (a : cert_args) (d : digest) (h : option bytes)
             (data : sign_data) (derived : bool) : C -> (signature + crypto_error) * C :=
    if derived then
      if kind_exported k then
        match h with
        | None => fun c => (inr (CECryptoLib 0), c)
        | Some h => cseq (co_derive_key_pair_exported co h (ca_key_label a) (ca_context a))
                         (fun _ => co_signer_sign co data)
        end
      else sign_with_derived d (ca_cdi_label a) (ca_key_label a) (ca_context a) data
    else co_sign_with_alias co data.

  (** Running the writer behind offset [off] of the response buffer. *)
  Definition run_writer (off : nat) (m : W C N) : M N := fun w =>
    match m (cw_new C (skipn off (w_out w)) (w_c w)) with
    | (r, w') => (r, mkWorld (w_st w) (cw_c C w') (w_p w) (firstn off (w_out w) ++ cw_buf C w'))
    end.

  (** [u32::try_from(bytes_written).map_err(|_| e)] *)
  Definition to_u32 (n : N) (e : internal_code) : result N :=
    if N.ltb n (2 ^ 32) then Ok n else Err (InternalError e).

  (** x509.rs:2610-2669 [generate_cert_or_csr], X.509 and CSR branch. *)
  Definition generate_cert (crit : bool) (off : nat) (issuer : bytes) (v : cert_validity)
             (subject : name) (pk : pubkey) (md : measurement_data)
             (cb : sign_data -> bool -> C -> (signature + crypto_error) * C) : M N :=
    if Nat.ltb (length (ds_bytes (nm_serial subject))) 20
    then fail (InternalError SerialNumberSliceOob)
    else
      let! n := run_writer off
                  (encode_certificate cf crit C cb (firstn 20 (ds_bytes (nm_serial subject)))
                                      issuer subject pk md v) in
      lift (to_u32 n CertSizeOverflow).
  Definition generate_csr (crit : bool) (off : nat) (sid : signer_identifier)
             (subject : name) (pk : pubkey) (md : measurement_data)
             (cb : sign_data -> bool -> C -> (signature + crypto_error) * C) : M N :=
    let! n := run_writer off (encode_cms cf crit C cb pk subject md sid) in
    lift (to_u32 n CsrSizeOverflow).

  (** x509.rs:2671-2816 [create_dpe_cert_or_csr]. *)
  Definition create_cert (k : cert_kind) (a : cert_args) (off : nat) : M cert_result :=
    let! s0 := get_st in
    let! idx0 := lift (get_active_context_pos s0 (ca_handle a) (ca_locality a)) in
    let! d := compute_measurement_hash cf C P co po idx0 in
    let! pk_h := derive_subject_key k a d in
    let pk := fst pk_h in
    let! subject := get_subject_name k pk in
    let! ski := get_subject_key_identifier pk in
    let! aki := get_authority_key_identifier in
    let! san := get_subject_alt_name in
    let! s := get_st in
    let! idx := lift (get_active_context_pos s (ca_handle a) (ca_locality a)) in
    lift (tci_nodes_new idx (st_contexts s)) ;;
    let md := {| md_start := idx; md_contexts := st_contexts s; md_label := ca_ueid a;
                 md_is_ca := kind_exported k;
                 md_recursive := if kind_exported k then false else sup_recursive (st_support s);
                 md_ski := ski; md_aki := aki; md_san := san |} in
    let! v := platform (po_cert_validity po) in
    let! sid := platform (po_signer_identifier po) in
    let cb := sign_cb k a d (snd pk_h) in
    let! n :=
      (if kind_csr k then generate_csr (ca_critical a) off (cap_sid sid) subject pk md cb
       else
         let! issuer := get_issuer_name in
         generate_cert (ca_critical a) off issuer (cap_validity v) subject pk md cb) in
    let! h :=
      (if kind_exported k
       then lift (ok_or (snd pk_h) (InternalError MissingExportedCdiHandle))
       else ret (repeat 0 max_exported_cdi_size)) in
    ret {| cr_size := n; cr_pubkey := pk; cr_exported := h |}.

  (** The parameter [cert_gen] of Commands.v. *)
  Definition x509_gen (k : cert_kind) (a : cert_args) (off : nat) (s : state) (c : C) (p : P)
             (out : bytes) : result cert_result * C * P * bytes :=
    match create_cert k a off (mkWorld s c p out) with
    | (r, w) => (r, w_c w, w_p w, w_out w)
    end.
End Create.
