(** X509.v -- the certificate writer (dpe/src/x509.rs): size predictions, the
    DER encoding primitives and the certificate, CSR and CMS encoders.
    [usize] values are unbounded [N]s: the lengths that occur are far below
    2^32 (Props_X509.v bounds the whole output).  The build is the default one
    without disable_x509 / disable_csr; code under [cfg(feature = ...)] for a
    profile is selected by the profile alone. *)
From Verif Require Import Base Errors Types StateOps Env.
Open Scope N_scope.

Definition len (b : bytes) : N := N.of_nat (length b).

(** ** Inputs *)

(** x509.rs:81-101 [DirectoryString]. *)
Inductive dir_string := PrintableString (b : bytes) | Utf8String (b : bytes).
Definition ds_bytes (d : dir_string) : bytes :=
  match d with PrintableString b | Utf8String b => b end.

(** x509.rs:103-109 [Name]. *)
Record name := { nm_cn : dir_string; nm_serial : dir_string }.

(** x509.rs:111-157 [TciNodes] and [MeasurementData]; the pair [start_idx],
    [contexts] is [md_start], [md_contexts]. *)
Record measurement_data := {
  md_start : nat;
  md_contexts : list context;
  md_label : bytes;
  md_is_ca : bool;
  md_recursive : bool;
  md_ski : bytes;
  md_aki : bytes;
  md_san : option other_name
}.

(** ** Constants (x509.rs:54-79, 169-271) *)

Definition max_backtracks : nat := 10%nat.
Definition size_tag_offset : N := 3.

Definition T_BOOL : N := 0x1.
Definition T_INTEGER : N := 0x2.
Definition T_BIT_STRING : N := 0x3.
Definition T_OCTET_STRING : N := 0x4.
Definition T_OID : N := 0x6.
Definition T_UTF8_STRING : N := 0xC.
Definition T_PRINTABLE_STRING : N := 0x13.
Definition T_GENERALIZED_TIME : N := 0x18.
Definition T_SEQUENCE : N := 0x30.
Definition T_SET : N := 0x31.
Definition CONTEXT_SPECIFIC : N := 0x80.
Definition CONSTRUCTED : N := 0x20.
Definition bool_size : N := 1.

Definition oid_ecdsa_sha256 : bytes := [0x2A; 0x86; 0x48; 0xCE; 0x3D; 0x04; 0x03; 0x02].
Definition oid_ecdsa_sha384 : bytes := [0x2A; 0x86; 0x48; 0xCE; 0x3D; 0x04; 0x03; 0x03].
Definition oid_p256 : bytes := [0x2A; 0x86; 0x48; 0xCE; 0x3D; 0x03; 0x01; 0x07].
Definition oid_p384 : bytes := [0x2B; 0x81; 0x04; 0x00; 0x22].
Definition oid_sha256 : bytes := [0x60; 0x86; 0x48; 0x01; 0x65; 0x03; 0x04; 0x02; 0x01].
Definition oid_sha384 : bytes := [0x60; 0x86; 0x48; 0x01; 0x65; 0x03; 0x04; 0x02; 0x02].
Definition oid_mldsa : bytes := [0x60; 0x86; 0x48; 0x01; 0x65; 0x03; 0x04; 0x03; 0x13].
Definition oid_ec_pub : bytes := [0x2A; 0x86; 0x48; 0xCE; 0x3D; 0x02; 0x01].
Definition oid_cn : bytes := [0x55; 0x04; 0x03].
Definition oid_serial : bytes := [0x55; 0x04; 0x05].
Definition oid_multi_tcb : bytes := [0x67; 0x81; 0x05; 0x05; 0x04; 0x05].
Definition oid_ueid : bytes := [0x67; 0x81; 0x05; 0x05; 0x04; 0x04].
Definition oid_eca : bytes := [0x67; 0x81; 0x05; 0x05; 0x04; 0x64; 0x0C].
Definition oid_attest_loc : bytes := [0x67; 0x81; 0x05; 0x05; 0x04; 0x64; 0x09].
Definition oid_basic_constraints : bytes := [0x55; 0x1D; 0x13].
Definition oid_key_usage : bytes := [0x55; 0x1D; 0x0F].
Definition oid_eku : bytes := [0x55; 0x1D; 0x25].
Definition oid_ski : bytes := [0x55; 0x1D; 0x0E].
Definition oid_aki : bytes := [0x55; 0x1D; 0x23].
Definition oid_san : bytes := [0x55; 0x1D; 0x11].
Definition oid_signed_data : bytes := [0x2A; 0x86; 0x48; 0x86; 0xF7; 0x0D; 0x01; 0x07; 0x02].
Definition oid_data : bytes := [0x2A; 0x86; 0x48; 0x86; 0xF7; 0x0D; 0x01; 0x07; 0x01].
Definition oid_ext_request : bytes := [0x2A; 0x86; 0x48; 0x86; 0xF7; 0x0D; 0x01; 0x09; 0x0E].

(** ** Sizes *)

(** x509.rs:357-369. *)
Definition get_size_width (size : N) : N :=
  if N.ltb size 128 then 1
  else if N.ltb size 256 then 2
  else if N.ltb size 65536 then 3
  else if N.ltb size 16777216 then 4
  else 5.

(** x509.rs:373-379. *)
Definition get_structure_size (data_size : N) (tagged : bool) : N :=
  if tagged then 1 + get_size_width data_size + data_size else data_size.

(** x509.rs:384-394, the loop. *)
Fixpoint integer_len_loop (l : bytes) (n : N) : N :=
  match l with
  | [] => n
  | b :: l' =>
      if N.eqb b 0 && negb (match l' with [] => true | _ => false end)
      then integer_len_loop l' (n - 1)
      else if negb (N.eqb (N.land b 0x80) 0) then n + 1 else n
  end.

(** x509.rs:383-397. *)
Definition get_integer_bytes_size (l : bytes) (tagged : bool) : N :=
  get_structure_size (integer_len_loop l (len l)) tagged.

(** x509.rs:401-404 (u64::to_be_bytes). *)
Definition get_integer_size (v : N) (tagged : bool) : N :=
  get_integer_bytes_size (be_bytes 8 v) tagged.

(** x509.rs:409-411. *)
Definition get_bytes_size (b : bytes) (tagged : bool) : N := get_structure_size (len b) tagged.

(** The slices of an ECDSA key or signature, crypto/src/ecdsa/mod.rs:162-181,
    190-209 [as_slice], [curve_size]; the ML-DSA arrays. *)
Definition ecdsa_pub (k : pubkey) : option (N * bytes * bytes) :=
  match k with
  | PkEcdsa256 x y => Some (32, to_buf 32 x, to_buf 32 y)
  | PkEcdsa384 x y => Some (48, to_buf 48 x, to_buf 48 y)
  | PkMldsa _ => None
  end.
Definition mldsa_pub (b : bytes) : bytes := to_buf (N.to_nat mldsa87_pk_size) b.
Definition ecdsa_sig (s : signature) : option (bytes * bytes) :=
  match s with
  | SigEcdsa256 r v => Some (to_buf 32 r, to_buf 32 v)
  | SigEcdsa384 r v => Some (to_buf 48 r, to_buf 48 v)
  | SigMldsa _ => None
  end.
Definition mldsa_sig (b : bytes) : bytes := to_buf (N.to_nat mldsa87_sig_size) b.

Section Sizes.
  Variable cf : config.
  (** [self.crit_dice] *)
  Variable crit : bool.

  (** x509.rs:413-422, 424-433. *)
  Definition sig_oid : bytes :=
    match prof cf with
    | P256Sha256 => oid_ecdsa_sha256 | P384Sha384 => oid_ecdsa_sha384 | Mldsa87 => oid_mldsa
    end.
  Definition hash_oid : bytes :=
    match prof cf with P256Sha256 => oid_sha256 | _ => oid_sha384 end.

  (** x509.rs:438-442. *)
  Definition get_ec_pub_alg_id_size (curve : bytes) (tagged : bool) : N :=
    get_structure_size (get_bytes_size oid_ec_pub true + get_bytes_size curve true) tagged.

  (** x509.rs:446-449, 454-457 (the ECDSA and ML-DSA versions are the same). *)
  Definition get_sig_alg_id_size (tagged : bool) : N :=
    get_structure_size (get_bytes_size sig_oid true) tagged.

  (** x509.rs:462-465. *)
  Definition get_hash_alg_id_size (tagged : bool) : N :=
    get_structure_size (get_bytes_size hash_oid true) tagged.

  (** x509.rs:469-473. *)
  Definition get_validity_size (v : cert_validity) (tagged : bool) : N :=
    get_structure_size (get_bytes_size (cv_not_before v) true + get_bytes_size (cv_not_after v) true)
                       tagged.

  (** x509.rs:478-482. *)
  Definition get_mldsa_spki_size (pk : bytes) (tagged : bool) : N :=
    get_structure_size (get_structure_size (1 + len pk) true + get_sig_alg_id_size true) tagged.

  (** x509.rs:508-518. *)
  Definition get_ecdsa_sig_octet_size (r s : bytes) (tagged : bool) : N :=
    get_structure_size
      (get_structure_size (get_integer_bytes_size r true + get_integer_bytes_size s true) true)
      tagged.

  (** x509.rs:486-498, 502-504. *)
  Definition get_signature_octet_string_size (sg : signature) (tagged : bool) : N :=
    match ecdsa_sig sg, sg with
    | Some (r, s), _ => get_sig_alg_id_size tagged + get_ecdsa_sig_octet_size r s tagged
    | None, SigMldsa b => get_sig_alg_id_size tagged + get_structure_size (len (mldsa_sig b)) tagged
    | None, _ => 0
    end.

  (** x509.rs:521-525. *)
  Definition get_fwid_size (digest : bytes) (tagged : bool) : N :=
    get_structure_size (get_structure_size (len hash_oid) true + get_structure_size (len digest) true)
                       tagged.

  (** x509.rs:530-556. *)
  Definition get_tcb_info_size (t : tci) (recursive tagged : bool) : N :=
    let fwid_size := get_fwid_size (tci_current t) true in
    let svn_size := get_integer_size (tci_svn t) true in
    let ir_size :=
      if recursive then
        let fwid_size := get_fwid_size (tci_cumulative t) true in
        let fwid_list_size := get_structure_size fwid_size true in
        let ir_num_size := get_integer_size 0 true in
        get_structure_size (get_structure_size (ir_num_size + fwid_list_size) true) true
      else 0 in
    let fwids_size := get_structure_size fwid_size true in
    get_structure_size (fwids_size + 2 * get_structure_size 4 true + ir_size + svn_size) tagged.

  (** x509.rs:560-570. *)
  Definition get_extension_size (oid : bytes) (critical : bool) (content : N) (tagged : bool) : N :=
    get_structure_size
      (get_structure_size (len oid) true
       + (if critical then get_structure_size bool_size true else 0)
       + get_structure_size content true) tagged.

  (** x509.rs:111-147 [TciNodes::iter], [is_empty], [num_nodes], [first_node]. *)
  Definition nodes_iter (md : measurement_data) : result ctr_iter :=
    iter_new cf (md_start md) (md_contexts md).
  Definition nodes_empty (md : measurement_data) : result bool :=
    rbind (nodes_iter md) (fun it => Ok (Nat.eqb (it_path_len it) 0)).
  Definition nodes_num (md : measurement_data) : result N :=
    rbind (nodes_iter md) (fun it => Ok (N.of_nat (it_path_len it))).
  Definition nodes_first (md : measurement_data) : result (option tci) :=
    rbind (nodes_iter md) (fun it =>
      match fst (iter_next_back cf (md_contexts md) it) with
      | None => Ok None
      | Some (Ok c) => Ok (Some (c_tci c))
      | Some (Err e) => Err e
      | Some (Crash k) => Crash k
      end).

  (** x509.rs:601-630. *)
  Definition get_multi_tcb_info_size (md : measurement_data) (tagged : bool) : result N :=
    rbind (nodes_empty md) (fun e =>
      if e then Err (InternalError EmptyTciNodes)
      else
        rbind (nodes_num md) (fun n =>
        rbind (nodes_first md) (fun o =>
        rbind (ok_or o (InternalError EmptyTciNodes)) (fun t =>
          let infos := n * get_tcb_info_size t (md_recursive md) true in
          Ok (get_extension_size oid_multi_tcb crit (get_structure_size infos true) tagged))))).

  (** x509.rs:634-643. *)
  Definition get_ueid_size (md : measurement_data) (tagged : bool) : N :=
    get_extension_size oid_ueid crit
      (get_structure_size (get_structure_size (len (md_label md)) true) true) tagged.

  (** x509.rs:647-658. *)
  Definition get_basic_constraints_size (md : measurement_data) (tagged : bool) : N :=
    let ca_size := if md_is_ca md then get_structure_size bool_size true else 0 in
    get_extension_size oid_basic_constraints true (get_structure_size ca_size true) tagged.

  (** x509.rs:662-667. *)
  Definition get_key_usage_size (tagged : bool) : N :=
    get_extension_size oid_key_usage true (get_structure_size 2 true) tagged.

  Definition policy_oid (md : measurement_data) : bytes :=
    if md_is_ca md then oid_eca else oid_attest_loc.

  (** x509.rs:671-686. *)
  Definition get_eku_size (md : measurement_data) (tagged : bool) : N :=
    get_extension_size oid_eku true
      (get_structure_size (get_structure_size (len (policy_oid md)) true) true) tagged.

  (** x509.rs:690-705. *)
  Definition get_ski_extension_size (md : measurement_data) (tagged is_x509 : bool) : N :=
    if negb (md_is_ca md) || negb is_x509 then 0
    else get_extension_size oid_ski false (get_structure_size (len (md_ski md)) true) tagged.

  (** x509.rs:877-884 [get_key_identifier_size] (also
      [get_subject_key_identifier_size] 862-873, [get_econtent_size] 887-892 and
      [get_other_name_value_size] 761-766, which have the same body). *)
  Definition get_key_identifier_size (n : N) (tagged explicit : bool) : N :=
    get_structure_size (get_structure_size n explicit) tagged.

  (** x509.rs:709-728. *)
  Definition get_aki_extension_size (md : measurement_data) (tagged is_x509 : bool) : N :=
    if negb is_x509 then 0
    else
      let aki_size := get_key_identifier_size (len (md_aki md)) true false in
      get_extension_size oid_aki false (get_structure_size aki_size true) tagged.

  (** x509.rs:750-759. *)
  Definition get_other_name_size (o : other_name) (tagged : bool) : N :=
    get_structure_size
      (get_structure_size (len (on_oid o)) true
       + get_key_identifier_size (len (on_value o)) true true) tagged.

  (** x509.rs:730-748. *)
  Definition get_san_extension_size (md : measurement_data) (tagged : bool) : N :=
    match md_san md with
    | None => 0
    | Some o =>
        get_extension_size oid_san false
          (get_structure_size (get_other_name_size o true) true) tagged
    end.

  (** x509.rs:769-797. *)
  Definition get_extensions_size (md : measurement_data) (tagged explicit is_x509 : bool)
    : result N :=
    rbind (get_multi_tcb_info_size md true) (fun m =>
      let size := m + get_ueid_size md true + get_basic_constraints_size md true
                  + get_key_usage_size true + get_eku_size md true
                  + get_ski_extension_size md true is_x509
                  + get_aki_extension_size md true is_x509
                  + get_san_extension_size md true in
      Ok (get_structure_size (get_structure_size size explicit) tagged)).

  (** x509.rs:199-202: CMS_V1 / CMS_V3, chosen by x509.rs:801-809, 1793-1801. *)
  Definition cms_version (sid : signer_identifier) : N :=
    match sid with IssuerAndSerialNumber _ _ => 1 | SubjectKeyIdentifier _ => 3 end.
  Definition get_cms_version_size (sid : signer_identifier) : N :=
    get_integer_size (cms_version sid) true.

  (** x509.rs:848-857. *)
  Definition get_issuer_and_serial_size (serial issuer : bytes) (tagged : bool) : N :=
    get_structure_size (get_integer_bytes_size serial true + len issuer) tagged.

  (** x509.rs:825-843. *)
  Definition get_signer_identifier_size (sid : signer_identifier) (tagged : bool) : N :=
    match sid with
    | IssuerAndSerialNumber issuer serial => get_issuer_and_serial_size serial issuer tagged
    | SubjectKeyIdentifier kid => get_key_identifier_size (len kid) tagged true
    end.

  (** x509.rs:814-820. *)
  Definition get_signer_info_size (sg : signature) (sid : signer_identifier) (tagged : bool) : N :=
    get_structure_size
      (get_cms_version_size sid + get_signer_identifier_size sid true
       + get_hash_alg_id_size true + get_signature_octet_string_size sg true) tagged.

  (** x509.rs:897-915. *)
  Definition get_attribute_size (md : measurement_data) (tagged : bool) : result N :=
    rbind (get_extensions_size md true false false) (fun e =>
      Ok (get_structure_size (get_structure_size (len oid_data) true + get_structure_size e true)
                             tagged)).

  (** x509.rs:920-928. *)
  Definition get_attributes_size (md : measurement_data) (tagged : bool) : result N :=
    rbind (get_attribute_size md true) (fun a => Ok (get_structure_size a tagged)).
End Sizes.

(** ** The writer *)

Section Writer.
  Variable cf : config.
  Variable crit : bool.
  Variable C : Type.

  (** x509.rs:159-167 [CertWriter].  [cw_buf] is the window of the response
      buffer behind the offset the caller chose ([OffsetResponseBuffer]); its
      length is [capacity()].  [profile] and [crit_dice] are parameters.  The
      crypto state [cw_c] is what the signing callback captures by reference. *)
  Record cw := mkCw {
    cw_buf : bytes;
    cw_off : N;
    cw_csr : option (N * N);
    cw_back : list (N * N);
    cw_saved : option N;
    cw_c : C
  }.

  (** x509.rs:277-291 [CertWriter::new]. *)
  Definition cw_new (buf : bytes) (c : C) : cw := mkCw buf 0 None [] None c.

  Definition W (A : Type) := cw -> result A * cw.
  Definition wret {A} (a : A) : W A := fun w => (Ok a, w).
  Definition wlift {A} (r : result A) : W A := fun w => (r, w).
  Definition wbind {A B} (m : W A) (f : A -> W B) : W B := fun w =>
    match m w with
    | (Ok a, w') => f a w'
    | (Err e, w') => (Err e, w')
    | (Crash k, w') => (Crash k, w')
    end.
  (** [bytes_written += m2] after [m1]. *)
  Definition wadd (m1 m2 : W N) : W N := wbind m1 (fun a => wbind m2 (fun b => wret (a + b))).
  Definition seq_of (l : list (W N)) : W N := fold_left wadd l (wret 0).

  (** x509.rs:306-312. *)
  Definition push_backtrack (skip : N) : W N := fun w =>
    if Nat.ltb (length (cw_back w)) max_backtracks
    then (Ok (cw_off w + skip),
          mkCw (cw_buf w) (cw_off w + skip) (cw_csr w)
               ((cw_off w, cw_off w + skip) :: cw_back w) (cw_saved w) (cw_c w))
    else (Err X509SkipsExhausted, w).

  (** x509.rs:321-333.  The subtraction cannot underflow: the second component
      of an entry is the first plus the skip. *)
  Definition pop_backtrack (expected_width : N) : W unit := fun w =>
    match cw_saved w with
    | None => (Err X509InvalidState, w)
    | Some _ =>
        match cw_back w with
        | [] => (Err X509InvalidState, w)
        | (a, b) :: l =>
            if negb (N.eqb (b - a) expected_width)
            then (Err X509InvalidWidth, mkCw (cw_buf w) (cw_off w) (cw_csr w) l (cw_saved w) (cw_c w))
            else (Ok tt, mkCw (cw_buf w) a (cw_csr w) l (cw_saved w) (cw_c w))
        end
    end.

  (** x509.rs:338-344. *)
  Definition start_backtrack : W unit := fun w =>
    match cw_saved w with
    | Some _ => (Err X509InvalidState, w)
    | None => (Ok tt, mkCw (cw_buf w) (cw_off w) (cw_csr w) (cw_back w) (Some (cw_off w)) (cw_c w))
    end.

  (** x509.rs:347-354. *)
  Definition end_backtrack : W unit := fun w =>
    match cw_saved w with
    | None => (Err X509InvalidState, w)
    | Some o => (Ok tt, mkCw (cw_buf w) o (cw_csr w) (cw_back w) None (cw_c w))
    end.

  (** [certificate.write_at(offset, bytes)] with the result dropped
      (response-buffer/src/lib.rs:65-71, 112-121): nothing is written unless
      everything fits. *)
  Definition put_at (buf : bytes) (off : N) (bs : bytes) : bytes :=
    if N.leb (off + len bs) (len buf)
    then firstn (N.to_nat off) buf ++ bs ++ skipn (N.to_nat off + length bs) buf
    else buf.

  (** x509.rs:931-941. *)
  Definition encode_bytes (bs : bytes) : W N := fun w =>
    (Ok (len bs), mkCw (put_at (cw_buf w) (cw_off w) bs) (cw_off w + len bs)
                       (cw_csr w) (cw_back w) (cw_saved w) (cw_c w)).

  (** x509.rs:944-953, 956-958. *)
  Definition encode_byte (b : N) : W N := encode_bytes [b].
  Definition encode_tag_field (tag : N) : W N := encode_byte tag.

  (** x509.rs:961-973.  [(size >> (i * 8)) as u8] for i = rem-1 .. 0. *)
  Definition encode_size_field (size : N) : W N :=
    let width := get_size_width size in
    if N.eqb width 1 then wbind (encode_byte (N.modulo size 256)) (fun _ => wret width)
    else
      let rem := N.to_nat (width - 1) in
      wbind (encode_byte (N.lor 0x80 (N.of_nat rem))) (fun _ =>
      wbind (seq_of (map (fun i => encode_byte (N.modulo (N.shiftr size (N.of_nat i * 8)) 256))
                         (rev (seq 0 rem)))) (fun _ => wret width)).

  (** x509.rs:979-985. *)
  Definition check_not_truncated : W unit := fun w =>
    if N.ltb (len (cw_buf w)) (cw_off w) then (Err (InternalError CertSizeOverflow), w)
    else (Ok tt, w).

  (** x509.rs:988-1010. *)
  Definition encode_integer_bytes (l : bytes) (tagged : bool) : W N :=
    let size := get_integer_bytes_size l false in
    seq_of [ (if tagged then encode_tag_field T_INTEGER else wret 0);
             encode_size_field size;
             (if N.ltb (len l) size then encode_byte 0 else wret 0);
             encode_bytes (skipn (N.to_nat (len l - size)) l) ].

  (** x509.rs:1013-1015. *)
  Definition encode_integer (v : N) (tagged : bool) : W N :=
    encode_integer_bytes (be_bytes 8 v) tagged.

  (** x509.rs:1020-1026. *)
  Definition encode_tlv (tag : N) (v : bytes) : W N :=
    seq_of [encode_tag_field tag; encode_size_field (len v); encode_bytes v].

  (** x509.rs:1029-1031. *)
  Definition encode_oid (oid : bytes) : W N := encode_tlv T_OID oid.

  (** x509.rs:1036-1042. *)
  Definition encode_rdn_string (s : dir_string) : W N :=
    match s with
    | PrintableString v => encode_tlv T_PRINTABLE_STRING v
    | Utf8String v => encode_tlv T_UTF8_STRING v
    end.

  (** x509.rs:574-597; [critical] is the value of the BOOLEAN, if any. *)
  Definition encode_extension_header (oid : bytes) (critical : option N) (content : N) : W N :=
    seq_of ([ encode_byte T_SEQUENCE;
              encode_size_field
                (get_extension_size oid (match critical with Some _ => true | None => false end)
                                    content false);
              encode_oid oid ]
            ++ match critical with
               | Some v => [encode_byte T_BOOL; encode_size_field bool_size; encode_byte v]
               | None => []
               end
            ++ [ encode_byte T_OCTET_STRING; encode_size_field content ]).

  (** x509.rs:1062-1102. *)
  Definition encode_rdn (n : name) : W N :=
    let cn_size := get_structure_size (len oid_cn) true
                   + get_structure_size (len (ds_bytes (nm_cn n))) true in
    let sn_size := get_structure_size (len oid_serial) true
                   + get_structure_size (len (ds_bytes (nm_serial n))) true in
    let name_set := get_structure_size cn_size true in
    let serial_set := get_structure_size sn_size true in
    let rdn_seq := get_structure_size name_set true + get_structure_size serial_set true in
    wbind (seq_of [ encode_tag_field T_SEQUENCE; encode_size_field rdn_seq;
                    encode_tag_field T_SET; encode_size_field name_set;
                    encode_tag_field T_SEQUENCE; encode_size_field cn_size;
                    encode_oid oid_cn; encode_rdn_string (nm_cn n);
                    encode_tag_field T_SET; encode_size_field serial_set;
                    encode_tag_field T_SEQUENCE; encode_size_field sn_size;
                    encode_oid oid_serial; encode_rdn_string (nm_serial n) ]) (fun n =>
    wbind check_not_truncated (fun _ => wret n)).

  (** x509.rs:1118-1127. *)
  Definition encode_ec_pub_alg_id (curve : bytes) : W N :=
    seq_of [ encode_tag_field T_SEQUENCE;
             encode_size_field (get_ec_pub_alg_id_size curve false);
             encode_oid oid_ec_pub; encode_oid curve ].

  (** x509.rs:1136-1144, 1330-1338 (the ECDSA and ML-DSA versions are the same). *)
  Definition encode_sig_alg_id : W N :=
    seq_of [ encode_tag_field T_SEQUENCE;
             encode_size_field (get_sig_alg_id_size cf false);
             encode_oid (sig_oid cf) ].

  (** x509.rs:1154-1162. *)
  Definition encode_hash_alg_id : W N :=
    seq_of [ encode_tag_field T_SEQUENCE;
             encode_size_field (get_hash_alg_id_size cf false);
             encode_oid (hash_oid cf) ].

  (** x509.rs:1166-1176. *)
  Definition encode_validity (v : cert_validity) : W N :=
    seq_of [ encode_tag_field T_SEQUENCE; encode_size_field (get_validity_size v false);
             encode_tlv T_GENERALIZED_TIME (cv_not_before v);
             encode_tlv T_GENERALIZED_TIME (cv_not_after v) ].

  (** x509.rs:1194-1220. *)
  Definition encode_ecdsa_spki (curve_size : N) (x y curve : bytes) : W N :=
    let point_size := 1 + curve_size + curve_size in
    let bitstring_size := 1 + point_size in
    let seq_size := get_structure_size bitstring_size true + get_ec_pub_alg_id_size curve true in
    seq_of [ encode_tag_field T_SEQUENCE; encode_size_field seq_size;
             encode_ec_pub_alg_id curve;
             encode_tag_field T_BIT_STRING; encode_size_field bitstring_size;
             encode_byte 0; encode_byte 0x4; encode_bytes x; encode_bytes y ].

  (** x509.rs:1228-1249. *)
  Definition encode_ecdsa_sig_bit_string (r s : bytes) : W N :=
    let seq_size := get_integer_bytes_size r true + get_integer_bytes_size s true in
    seq_of [ encode_tag_field T_BIT_STRING;
             encode_size_field (get_structure_size (1 + seq_size) true);
             encode_byte 0;
             encode_tag_field T_SEQUENCE; encode_size_field seq_size;
             encode_integer_bytes r true; encode_integer_bytes s true ].

  (** x509.rs:1360-1369. *)
  Definition encode_mldsa_sig_bit_string (b : bytes) : W N :=
    seq_of [ encode_tag_field T_BIT_STRING; encode_size_field (1 + len b);
             encode_byte 0; encode_bytes b ].

  (** x509.rs:1253-1269. *)
  Definition encode_signature_bit_string (sg : signature) : W N :=
    match ecdsa_sig sg, sg with
    | Some (r, s), _ => wadd encode_sig_alg_id (encode_ecdsa_sig_bit_string r s)
    | None, SigMldsa b => wadd encode_sig_alg_id (encode_mldsa_sig_bit_string (mldsa_sig b))
    | None, _ => wret 0
    end.

  (** x509.rs:1298-1315. *)
  Definition encode_ecdsa_sig_octet_string (r s : bytes) : W N :=
    let seq_size := get_integer_bytes_size r true + get_integer_bytes_size s true in
    seq_of [ encode_tag_field T_OCTET_STRING;
             encode_size_field (get_structure_size seq_size true);
             encode_tag_field T_SEQUENCE; encode_size_field seq_size;
             encode_integer_bytes r true; encode_integer_bytes s true ].

  (** x509.rs:1273-1289, 1321-1326. *)
  Definition encode_signature_octet_string (sg : signature) : W N :=
    match ecdsa_sig sg, sg with
    | Some (r, s), _ => wadd encode_sig_alg_id (encode_ecdsa_sig_octet_string r s)
    | None, SigMldsa b => wadd encode_sig_alg_id (encode_tlv T_OCTET_STRING (mldsa_sig b))
    | None, _ => wret 0
    end.

  (** x509.rs:1342-1356 [encode_mldsa_subject_pubkey_info]. *)
  Definition encode_mldsa_spki (pk : bytes) : W N :=
    seq_of [ encode_tag_field T_SEQUENCE; encode_size_field (get_mldsa_spki_size cf pk false);
             encode_sig_alg_id;
             encode_tag_field T_BIT_STRING; encode_size_field (1 + len pk);
             encode_byte 0; encode_bytes pk ].

  (** x509.rs:1371-1379; X509_V3 = 2. *)
  Definition encode_version : W N :=
    seq_of [ encode_byte (N.lor CONTEXT_SPECIFIC CONSTRUCTED);
             encode_size_field (get_integer_size 2 true); encode_integer 2 true ].

  (** x509.rs:1381-1393. *)
  Definition encode_fwid (d : bytes) : W N :=
    seq_of [ encode_byte T_SEQUENCE; encode_size_field (get_fwid_size cf d false);
             encode_oid (hash_oid cf); encode_tlv T_OCTET_STRING d ].

  (** x509.rs:1407-1468. *)
  Definition encode_tcb_info (t : tci) (recursive : bool) : W N :=
    seq_of
      ([ encode_byte T_SEQUENCE; encode_size_field (get_tcb_info_size cf t recursive false);
         encode_byte (N.lor CONTEXT_SPECIFIC 0x03); encode_integer (tci_svn t) false;
         encode_byte (N.lor (N.lor CONTEXT_SPECIFIC CONSTRUCTED) 0x06);
         encode_size_field (get_fwid_size cf (tci_current t) true);
         encode_fwid (tci_current t);
         encode_tlv (N.lor CONTEXT_SPECIFIC 0x08) (be_bytes 4 (tci_locality t));
         encode_tlv (N.lor CONTEXT_SPECIFIC 0x09) (le_bytes 4 (tci_type t)) ]
       ++ (if recursive then
             let fwid_size := get_fwid_size cf (tci_cumulative t) true in
             let fwid_list_size := get_structure_size fwid_size true in
             let ir_num_size := get_integer_size 0 true in
             [ encode_byte (N.lor (N.lor CONTEXT_SPECIFIC CONSTRUCTED) 11);
               encode_size_field (get_structure_size (ir_num_size + fwid_list_size) true);
               encode_byte T_SEQUENCE; encode_size_field (ir_num_size + fwid_list_size);
               encode_byte (N.lor CONTEXT_SPECIFIC 0x01); encode_integer 0 false;
               encode_byte (N.lor (N.lor CONTEXT_SPECIFIC CONSTRUCTED) 0x02);
               encode_size_field fwid_size; encode_fwid (tci_cumulative t) ]
           else [])).

  (** x509.rs:1498-1504: the loop over the nodes, root first. *)
  Fixpoint encode_nodes (n : nat) (l : list context) (it : ctr_iter) (recursive : bool) : W N :=
    match n with
    | O => wlift (Crash CrashFuel)
    | S n' =>
        match iter_next_back cf l it with
        | (None, _) => wret 0
        | (Some (Ok c), it') =>
            wadd (encode_tcb_info (c_tci c) recursive) (encode_nodes n' l it' recursive)
        | (Some (Err e), _) => wlift (Err e)
        | (Some (Crash k), _) => wlift (Crash k)
        end
    end.

  Definition critical_dice : option N := if crit then Some 0xFF else None.

  (** x509.rs:1473-1507. *)
  Definition encode_multi_tcb_info (md : measurement_data) : W N :=
    wbind (wlift (rbind (nodes_empty cf md) (fun e =>
             if negb e then
               rbind (nodes_first cf md) (fun o =>
               rbind (ok_or o (InternalError EmptyTciNodes)) (fun t =>
               rbind (nodes_num cf md) (fun n => Ok (get_tcb_info_size cf t (md_recursive md) true * n))))
             else Ok 0))) (fun infos =>
    let multi := get_structure_size infos true in
    wadd (seq_of [ encode_extension_header oid_multi_tcb critical_dice multi;
                   encode_byte T_SEQUENCE; encode_size_field infos ])
         (wbind (wlift (nodes_iter cf md)) (fun it =>
            encode_nodes (fuel cf) (md_contexts md) it (md_recursive md)))).

  (** x509.rs:1512-1530. *)
  Definition encode_ueid (md : measurement_data) : W N :=
    let inner := get_structure_size (len (md_label md)) true in
    seq_of [ encode_extension_header oid_ueid critical_dice (get_structure_size inner true);
             encode_byte T_SEQUENCE; encode_size_field inner;
             encode_tlv T_OCTET_STRING (md_label md) ].

  (** x509.rs:1535-1557. *)
  Definition encode_basic_constraints (md : measurement_data) : W N :=
    let ca_size := if md_is_ca md then get_structure_size bool_size true else 0 in
    seq_of ([ encode_extension_header oid_basic_constraints (Some 0xFF) (get_structure_size ca_size true);
              encode_byte T_SEQUENCE; encode_size_field ca_size ]
            ++ (if md_is_ca md
                then [ encode_byte T_BOOL; encode_size_field bool_size; encode_byte 0xFF ]
                else [])).

  (** x509.rs:1562-1590; KeyUsageFlags x509.rs:169-176. *)
  Definition encode_key_usage (is_ca : bool) : W N :=
    seq_of [ encode_extension_header oid_key_usage (Some 0xFF) (get_structure_size 2 true);
             encode_byte T_BIT_STRING; encode_size_field 2;
             encode_byte (if is_ca then 2 else 7);
             encode_byte (if is_ca then N.lor 0x80 0x04 else 0x80) ].

  (** x509.rs:1600-1624. *)
  Definition encode_extended_key_usage (md : measurement_data) : W N :=
    let inner := get_structure_size (len (policy_oid md)) true in
    seq_of [ encode_extension_header oid_eku (Some 0xFF) (get_structure_size inner true);
             encode_byte T_SEQUENCE; encode_size_field inner; encode_oid (policy_oid md) ].

  (** x509.rs:1627-1640. *)
  Definition encode_other_name_value (v : bytes) : W N :=
    seq_of [ encode_byte (N.lor CONTEXT_SPECIFIC CONSTRUCTED);
             encode_size_field (get_key_identifier_size (len v) true false);
             encode_tlv T_UTF8_STRING v ].

  (** x509.rs:1647-1658. *)
  Definition encode_other_name (o : other_name) : W N :=
    seq_of [ encode_byte (N.lor CONTEXT_SPECIFIC CONSTRUCTED);
             encode_size_field (get_other_name_size o false);
             encode_oid (on_oid o); encode_other_name_value (on_value o) ].

  (** x509.rs:1677-1696. *)
  Definition encode_san_extension (md : measurement_data) : W N :=
    match md_san md with
    | None => wret 0
    | Some o =>
        let other := get_other_name_size o true in
        seq_of [ encode_extension_header oid_san None (get_structure_size other true);
                 encode_byte T_SEQUENCE; encode_size_field other; encode_other_name o ]
    end.

  (** x509.rs:1954-1957 [encode_key_identifier]. *)
  Definition encode_key_identifier (k : bytes) : W N := encode_tlv CONTEXT_SPECIFIC k.

  (** x509.rs:1703-1727. *)
  Definition encode_aki_extension (md : measurement_data) (is_x509 : bool) : W N :=
    if negb is_x509 then wret 0
    else
      let kid_size := get_key_identifier_size (len (md_aki md)) true false in
      seq_of [ encode_extension_header oid_aki None (get_structure_size kid_size true);
               encode_byte T_SEQUENCE; encode_size_field kid_size;
               encode_key_identifier (md_aki md) ].

  (** x509.rs:1729-1749. *)
  Definition encode_ski_extension (md : measurement_data) (is_x509 : bool) : W N :=
    if negb (md_is_ca md) || negb is_x509 then wret 0
    else seq_of [ encode_extension_header oid_ski None (get_structure_size (len (md_ski md)) true);
                  encode_tlv T_OCTET_STRING (md_ski md) ].

  (** [self.encode_size_field(size?)] *)
  Definition encode_size_of (r : result N) : W N := wbind (wlift r) encode_size_field.

  (** x509.rs:1751-1787. *)
  Definition encode_extensions (md : measurement_data) (is_x509 : bool) : W N :=
    seq_of
      ((if is_x509 then
          [ encode_byte (N.lor (N.lor CONTEXT_SPECIFIC CONSTRUCTED) 0x03);
            encode_size_of (get_extensions_size cf crit md true false is_x509) ]
        else [])
       ++ [ encode_byte T_SEQUENCE;
            encode_size_of (get_extensions_size cf crit md false false is_x509);
            encode_multi_tcb_info md; encode_ueid md; encode_basic_constraints md;
            encode_key_usage (md_is_ca md); encode_extended_key_usage md;
            encode_ski_extension md is_x509; encode_aki_extension md is_x509;
            encode_san_extension md ]).

  (** x509.rs:1793-1801. *)
  Definition encode_cms_version (sid : signer_identifier) : W N :=
    encode_integer (cms_version sid) true.

  (** x509.rs:1815-1840. *)
  Definition encode_attributes (md : measurement_data) : W N :=
    seq_of [ encode_byte (N.lor CONTEXT_SPECIFIC CONSTRUCTED);
             encode_size_of (get_attributes_size cf crit md false);
             encode_tag_field T_SEQUENCE;
             encode_size_of (get_attribute_size cf crit md false);
             encode_oid oid_ext_request;
             encode_tag_field T_SET;
             encode_size_of (get_extensions_size cf crit md true false false);
             encode_extensions md false ].

  (** x509.rs:1906-1928. *)
  Definition encode_issuer_and_serial (serial issuer : bytes) : W N :=
    seq_of [ encode_tag_field T_SEQUENCE;
             encode_size_field (get_issuer_and_serial_size serial issuer false);
             encode_bytes issuer; encode_integer_bytes serial true ].

  (** x509.rs:1935-1948. *)
  Definition encode_subject_key_identifier (kid : bytes) : W N :=
    seq_of [ encode_byte CONTEXT_SPECIFIC;
             encode_size_field (get_key_identifier_size (len kid) true false);
             encode_tlv T_OCTET_STRING kid ].

  (** x509.rs:1887-1897. *)
  Definition encode_signer_identifier (sid : signer_identifier) : W N :=
    match sid with
    | IssuerAndSerialNumber issuer serial => encode_issuer_and_serial serial issuer
    | SubjectKeyIdentifier kid => encode_subject_key_identifier kid
    end.

  (** x509.rs:1854-1878. *)
  Definition encode_signer_info (sg : signature) (sid : signer_identifier) : W N :=
    wbind (seq_of [ encode_tag_field T_SEQUENCE;
                    encode_size_field (get_signer_info_size cf sg sid false);
                    encode_cms_version sid; encode_signer_identifier sid; encode_hash_alg_id;
                    encode_signature_octet_string sg ]) (fun n =>
    wbind check_not_truncated (fun _ => wret n)).

  (** x509.rs:2083-2102, 2264-2283: the subject public key, by key and profile. *)
  Definition encode_spki (pk : pubkey) : W N :=
    match ecdsa_pub pk, pk with
    | Some (n, x, y), _ =>
        match prof cf with
        | P256Sha256 => encode_ecdsa_spki n x y oid_p256
        | P384Sha384 => encode_ecdsa_spki n x y oid_p384
        | Mldsa87 => wlift (Err InvalidArgument)
        end
    | None, PkMldsa b => encode_mldsa_spki (mldsa_pub b)
    | None, _ => wret 0
    end.

  (** x509.rs:2108-2113, 2289-2294, 2216-2223: writing the size of a body whose
      length field was reserved before; returns the width of the field. *)
  Definition backfill (size : N) : W N :=
    wbind start_backtrack (fun _ =>
    wbind (pop_backtrack (get_size_width size)) (fun _ =>
    wbind (encode_size_field size) (fun n =>
    wbind end_backtrack (fun _ => wret n)))).

  (** x509.rs:2047-2117. *)
  Definition encode_tbs (serial issuer : bytes) (subject : name) (pk : pubkey)
             (md : measurement_data) (v : cert_validity) : W N :=
    wbind (encode_tag_field T_SEQUENCE) (fun prefix =>
    wbind (push_backtrack size_tag_offset) (fun _ =>
    wbind (seq_of [ encode_version; encode_integer_bytes serial true; encode_sig_alg_id;
                    encode_bytes issuer; encode_validity v; encode_rdn subject;
                    encode_spki pk; encode_extensions md true ]) (fun body =>
    wbind (backfill body) (fun n =>
    wbind check_not_truncated (fun _ => wret (prefix + n + body)))))).

  (** x509.rs:2247-2298. *)
  Definition encode_certification_request_info (pk : pubkey) (subject : name)
             (md : measurement_data) : W N :=
    wbind (encode_tag_field T_SEQUENCE) (fun prefix =>
    wbind (push_backtrack size_tag_offset) (fun _ =>
    wbind (seq_of [ encode_integer 0 true; encode_rdn subject; encode_spki pk;
                    encode_attributes md ]) (fun body =>
    wbind (backfill body) (fun n =>
    wbind check_not_truncated (fun _ => wret (prefix + n + body)))))).

  (** The signing callback (x509.rs:39-52): what to sign, and whether to use the
      derived key. *)
  Variable sign_cb : sign_data -> bool -> C -> (signature + crypto_error) * C.

  (** [sign_cb(&*self.certificate, start..end, use_derived)] and [okref(&sig)?].
      The callee reads the range through [read_range]
      (response-buffer/src/lib.rs:73-87, 123-130); when it is out of bounds it
      reports CryptoError::Size (crypto/src/rustcrypto.rs:375-381). *)
  Definition call_sign (start stop : N) (derived : bool) : W signature := fun w =>
    if N.leb start stop && N.leb stop (len (cw_buf w)) then
      let data := firstn (N.to_nat (stop - start)) (skipn (N.to_nat start) (cw_buf w)) in
      match sign_cb (SDBuffer data) derived (cw_c w) with
      | (inl sg, c) => (Ok sg, mkCw (cw_buf w) (cw_off w) (cw_csr w) (cw_back w) (cw_saved w) c)
      | (inr e, c) =>
          (Err (CryptoErr e), mkCw (cw_buf w) (cw_off w) (cw_csr w) (cw_back w) (cw_saved w) c)
      end
    else (Err (CryptoErr CESize), w).

  (** x509.rs:2166-2228 [encode_signed_payload]; [derived] is [is_csr]. *)
  Definition encode_signed_payload (payload : W N) (derived : bool) : W N :=
    wbind (encode_tag_field T_SEQUENCE) (fun prefix =>
    wbind (push_backtrack size_tag_offset) (fun offset =>
    wbind payload (fun payload_bytes =>
    wbind (call_sign offset (offset + payload_bytes) derived) (fun sg =>
    wbind (encode_signature_bit_string sg) (fun sig_bytes =>
    let body := payload_bytes + sig_bytes in
    wbind (backfill body) (fun n => wret (body + (prefix + n)))))))).

  (** x509.rs:2129-2153. *)
  Definition encode_certificate (serial issuer : bytes) (subject : name) (pk : pubkey)
             (md : measurement_data) (v : cert_validity) : W N :=
    wbind (encode_signed_payload (encode_tbs serial issuer subject pk md v) false) (fun n =>
    wbind check_not_truncated (fun _ => wret n)).

  (** x509.rs:2310-2328. *)
  Definition encode_csr (pk : pubkey) (subject : name) (md : measurement_data) : W N :=
    wbind (encode_signed_payload (encode_certification_request_info pk subject md) true) (fun n =>
    wbind check_not_truncated (fun _ => wret n)).

  Definition set_csr (r : N * N) : W unit := fun w =>
    (Ok tt, mkCw (cw_buf w) (cw_off w) (Some r) (cw_back w) (cw_saved w) (cw_c w)).

  (** x509.rs:1967-2018. *)
  Definition encode_encapsulated_content_info (pk : pubkey) (subject : name)
             (md : measurement_data) : W N :=
    wbind (encode_byte T_SEQUENCE) (fun size_bytes =>
    wbind (push_backtrack size_tag_offset) (fun _ =>
    wbind (encode_oid oid_data) (fun b1 =>
    wbind (encode_byte (N.lor CONTEXT_SPECIFIC CONSTRUCTED)) (fun b2 =>
    wbind (push_backtrack size_tag_offset) (fun _ =>
    wbind (encode_byte T_OCTET_STRING) (fun b3 =>
    wbind (push_backtrack size_tag_offset) (fun offset =>
    wbind (encode_csr pk subject md) (fun csr =>
    wbind (set_csr (offset, offset + csr)) (fun _ =>
    let econtent_1 := get_key_identifier_size csr false false in
    let econtent_0 := get_key_identifier_size csr true false in
    wbind start_backtrack (fun _ =>
    wbind (pop_backtrack (get_size_width econtent_1)) (fun _ =>
    wbind (encode_size_field econtent_1) (fun n1 =>
    wbind (pop_backtrack (get_size_width econtent_0)) (fun _ =>
    wbind (encode_size_field econtent_0) (fun n0 =>
    let bytes_written := b1 + b2 + b3 + n1 + n0 in
    wbind (pop_backtrack (get_size_width (bytes_written + csr))) (fun _ =>
    wbind (encode_size_field (bytes_written + csr)) (fun n =>
    wbind end_backtrack (fun _ =>
    wret (bytes_written + csr + (size_bytes + n))))))))))))))))))).

  Definition get_csr : W (N * N) := fun w =>
    match cw_csr w with Some r => (Ok r, w) | None => (Err X509CsrUnset, w) end.

  Definition check_no_backtracks : W unit := fun w =>
    match cw_back w with [] => (Ok tt, w) | _ => (Err X509InvalidState, w) end.

  (** x509.rs:2338-2427. *)
  Definition encode_cms (pk : pubkey) (subject : name) (md : measurement_data)
             (sid : signer_identifier) : W N :=
    wbind (encode_byte T_SEQUENCE) (fun t0 =>
    let content_info_prefix := t0 + size_tag_offset in
    wbind (push_backtrack size_tag_offset) (fun _ =>
    wbind (encode_oid oid_signed_data) (fun b0 =>
    wbind (encode_byte (N.lor CONTEXT_SPECIFIC CONSTRUCTED)) (fun b1 =>
    let content_info_body := b0 + (b1 + size_tag_offset) in
    wbind (push_backtrack size_tag_offset) (fun _ =>
    wbind (encode_tag_field T_SEQUENCE) (fun t1 =>
    let signed_data_prefix := t1 + size_tag_offset in
    wbind (push_backtrack size_tag_offset) (fun _ =>
    wbind (seq_of [ encode_cms_version sid; encode_tag_field T_SET;
                    encode_size_field (get_hash_alg_id_size cf true); encode_hash_alg_id;
                    encode_encapsulated_content_info pk subject md ]) (fun sd1 =>
    wbind get_csr (fun r =>
    wbind (call_sign (fst r) (snd r) false) (fun sg =>
    wbind (seq_of [ encode_tag_field T_SET;
                    encode_size_field (get_signer_info_size cf sg sid true);
                    encode_signer_info sg sid ]) (fun sd2 =>
    let signed_data_field_1 := sd1 + sd2 in
    let signed_data_field_0 := signed_data_prefix + signed_data_field_1 in
    let content_info_size := content_info_body + signed_data_field_0 in
    wbind start_backtrack (fun _ =>
    wbind (pop_backtrack (get_size_width signed_data_field_1)) (fun _ =>
    wbind (encode_size_field signed_data_field_1) (fun _ =>
    wbind (pop_backtrack (get_size_width signed_data_field_0)) (fun _ =>
    wbind (encode_size_field signed_data_field_0) (fun _ =>
    wbind (pop_backtrack (get_size_width content_info_size)) (fun _ =>
    wbind (encode_size_field content_info_size) (fun _ =>
    wbind end_backtrack (fun _ =>
    wbind check_no_backtracks (fun _ =>
    wbind check_not_truncated (fun _ =>
    wret (content_info_prefix + content_info_size)))))))))))))))))))))).
End Writer.
