(** Wire.v -- commands, responses and their byte layouts
    (dpe/src/commands/*.rs, dpe/src/response.rs).  All structures are repr(C),
    packed without padding (each field is a multiple of 4 bytes or the padding
    is an explicit field), little endian. *)
From Verif Require Import Base Errors Types StateOps.
Open Scope N_scope.

(** ** Fixed layouts *)

(** Split a byte string into consecutive fields of the given lengths; extra
    bytes at the end are ignored (zerocopy [ref_from_prefix] /
    [read_from_prefix]); [None] when too short. *)
Fixpoint split_fields (ls : list nat) (b : bytes) : option (list bytes) :=
  match ls with
  | [] => Some []
  | n :: ls' =>
      if Nat.leb n (length b)
      then option_map (cons (firstn n b)) (split_fields ls' (skipn n b))
      else None
  end.

(** ** Commands *)

(** dpe/src/commands/derive_context.rs:85-102 [DeriveContextCmd]. *)
Record derive_cmd := {
  dc_handle : bytes;
  dc_data : bytes;
  dc_flags : N;
  dc_tci_type : N;
  dc_target_locality : N;
  dc_svn : N
}.

(** dpe/src/commands/update_context_measurement.rs:22-48
    [UpdateContextMeasurementCmd]. *)
Record update_cmd := {
  uc_parent_handle : bytes;
  uc_data : bytes;
  uc_reserved : N;
  uc_tci_type : N;
  uc_reserved_svn : N
}.

(** dpe/src/commands/certify_key.rs:246-311 [CertifyKey*Cmd]. *)
Record certify_cmd := {
  ck_handle : bytes;
  ck_flags : N;
  ck_format : N;
  ck_label : bytes
}.

(** dpe/src/commands/sign.rs:290-347 [Sign*Cmd]. *)
Record sign_cmd := {
  sg_handle : bytes;
  sg_label : bytes;
  sg_flags : N;
  sg_digest : bytes
}.

(** dpe/src/commands/sign.rs:33-53 [SignMldsa87RawCmd]. *)
Record sign_raw_cmd := {
  sr_handle : bytes;
  sr_label : bytes;
  sr_flags : N;
  sr_size : N;
  sr_raw : bytes
}.

(** dpe/src/commands/certify_key.rs:31-38, sign.rs:56-66, mod.rs:57-72. *)
Inductive certify_command :=
| CertifyP256 (c : certify_cmd)
| CertifyP384 (c : certify_cmd)
| CertifyMldsa87 (c : certify_cmd).
Inductive sign_command :=
| SignP256 (c : sign_cmd)
| SignP384 (c : sign_cmd)
| SignMldsa87 (c : sign_cmd)
| SignMldsa87Raw (c : sign_raw_cmd).
Inductive command :=
| CmdGetProfile
| CmdInitCtx (flags : N)
| CmdDeriveContext (c : derive_cmd)
| CmdCertifyKey (c : certify_command)
| CmdSign (c : sign_command)
| CmdRotateCtx (handle : bytes) (flags : N)
| CmdDestroyCtx (handle : bytes)
| CmdGetCertificateChain (offset size : N)
| CmdUpdateContextMeasurement (c : update_cmd).

(** dpe/src/commands/mod.rs:75-85 and [id] 141-154. *)
Definition command_id (c : command) : N :=
  match c with
  | CmdGetProfile => 0x01
  | CmdInitCtx _ => 0x07
  | CmdDeriveContext _ => 0x08
  | CmdCertifyKey _ => 0x09
  | CmdSign _ => 0x0A
  | CmdRotateCtx _ _ => 0x0E
  | CmdDestroyCtx _ => 0x0F
  | CmdGetCertificateChain _ _ => 0x10
  | CmdUpdateContextMeasurement _ => 0x80000000
  end.

Definition u32_size : nat := 4%nat.
Definition hdr_size : nat := 12%nat.

(** dpe/src/commands/mod.rs:470 DPE_COMMAND_MAGIC = from_be_bytes("DPEC"). *)
Definition command_magic : N := 0x44504543.

(** Largest raw ML-DSA message: dpe/src/commands/sign.rs [MLDSA87_RAW_MAX_SIZE]. *)
Definition mldsa87_raw_max : nat := 1024%nat.

Section Cfg.
  Variable cf : config.

  (** dpe/src/commands/mod.rs:456-479 [CommandHdr] and [new]. *)
  Definition command_hdr (id : N) : bytes :=
    le_bytes 4 command_magic ++ le_bytes 4 id ++ le_bytes 4 (profile_id (prof cf)).

  Definition certify_cmd_bytes (c : certify_cmd) : bytes :=
    ck_handle c ++ le_bytes 4 (ck_flags c) ++ le_bytes 4 (ck_format c) ++ ck_label c.
  Definition sign_cmd_bytes (c : sign_cmd) : bytes :=
    sg_handle c ++ sg_label c ++ le_bytes 4 (sg_flags c) ++ sg_digest c.

  (** dpe/src/commands/mod.rs:126-139 [as_bytes] (the command without header). *)
  Definition command_bytes (c : command) : bytes :=
    match c with
    | CmdGetProfile => []
    | CmdInitCtx flags => le_bytes 4 flags
    | CmdDeriveContext d =>
        dc_handle d ++ dc_data d ++ le_bytes 4 (dc_flags d)
        ++ le_bytes 4 (dc_tci_type d) ++ le_bytes 4 (dc_target_locality d)
        ++ le_bytes 4 (dc_svn d)
    | CmdCertifyKey (CertifyP256 c) | CmdCertifyKey (CertifyP384 c)
    | CmdCertifyKey (CertifyMldsa87 c) => certify_cmd_bytes c
    | CmdSign (SignP256 c) | CmdSign (SignP384 c) | CmdSign (SignMldsa87 c) =>
        sign_cmd_bytes c
    | CmdSign (SignMldsa87Raw c) =>
        sr_handle c ++ sr_label c ++ le_bytes 4 (sr_flags c)
        ++ le_bytes 4 (sr_size c) ++ sr_raw c
    | CmdRotateCtx h flags => h ++ le_bytes 4 flags
    | CmdDestroyCtx h => h
    | CmdGetCertificateChain off size => le_bytes 4 off ++ le_bytes 4 size
    | CmdUpdateContextMeasurement u =>
        uc_parent_handle u ++ uc_data u ++ le_bytes 4 (uc_reserved u)
        ++ le_bytes 4 (uc_tci_type u) ++ le_bytes 4 (uc_reserved_svn u)
    end.

  (** What a client sends: header followed by the command structure
      (dpe/src/commands/mod.rs, module tests and simulator/src/main.rs). *)
  Definition serialize_command (c : command) : bytes :=
    command_hdr (command_id c) ++ command_bytes c.

  (** dpe/src/commands/mod.rs:481-502 [try_from_with_profile], [try_from]:
      the command id, or InvalidCommand. *)
  Definition parse_command_hdr (b : bytes) : result N :=
    match split_fields [4; 4; 4]%nat b with
    | Some [m; id; p] =>
        if negb (N.eqb (le_val m) command_magic) then Err InvalidCommand
        else if negb (N.eqb (le_val id) 1)
                && negb (N.eqb (le_val p) (profile_id (prof cf)))
        then Err InvalidCommand
        else Ok (le_val id)
    | _ => Err InvalidCommand
    end.

  Definition parse_certify (lbl : nat) (b : bytes) : result certify_cmd :=
    match split_fields [handle_size; 4; 4; lbl]%nat b with
    | Some [h; f; fmt; l] =>
        Ok {| ck_handle := h; ck_flags := le_val f; ck_format := le_val fmt; ck_label := l |}
    | _ => Err InvalidArgument
    end.

  Definition parse_sign (lbl dig : nat) (b : bytes) : result sign_cmd :=
    match split_fields [handle_size; lbl; 4; dig]%nat b with
    | Some [h; l; f; d] =>
        Ok {| sg_handle := h; sg_label := l; sg_flags := le_val f; sg_digest := d |}
    | _ => Err InvalidArgument
    end.

  (** dpe/src/commands/sign.rs:84-110 [deserialize_mldsa87]. *)
  Definition parse_sign_mldsa87 (b : bytes) : result sign_command :=
    match split_fields [handle_size; 48; 4]%nat b with
    | Some [_; _; f] =>
        if sf_is_raw (le_val f) then
          match split_fields [handle_size; 48; 4; 4; mldsa87_raw_max]%nat b with
          | Some [h; l; f; sz; raw] =>
              if N.ltb (N.of_nat mldsa87_raw_max) (le_val sz) then Err InvalidArgument
              else Ok (SignMldsa87Raw {| sr_handle := h; sr_label := l;
                         sr_flags := le_val f; sr_size := le_val sz; sr_raw := raw |})
          | _ => Err InvalidArgument
          end
        else rbind (parse_sign 48 64 b) (fun c => Ok (SignMldsa87 c))
    | _ => Err InvalidArgument
    end.

  (** dpe/src/commands/sign.rs:69-81 and certify_key.rs:45-62 [deserialize]. *)
  Definition parse_sign_command (b : bytes) : result sign_command :=
    match prof cf with
    | P256Sha256 => rbind (parse_sign 32 32 b) (fun c => Ok (SignP256 c))
    | P384Sha384 => rbind (parse_sign 48 48 b) (fun c => Ok (SignP384 c))
    | Mldsa87 => parse_sign_mldsa87 b
    end.
  Definition parse_certify_command (b : bytes) : result certify_command :=
    match prof cf with
    | P256Sha256 => rbind (parse_certify 32 b) (fun c => Ok (CertifyP256 c))
    | P384Sha384 => rbind (parse_certify 48 b) (fun c => Ok (CertifyP384 c))
    | Mldsa87 => rbind (parse_certify 48 b) (fun c => Ok (CertifyMldsa87 c))
    end.

  (** dpe/src/commands/mod.rs:92-124 [deserialize], [parse_command].
      Simplified: the input slice is assumed 4-byte aligned (zerocopy's
      [ref_from_prefix] rejects a misaligned one with InvalidArgument). *)
  Definition deserialize_command (b : bytes) : result command :=
    rbind (parse_command_hdr b) (fun id =>
      let body := skipn hdr_size b in
      match id with
      | 0x01 => Ok CmdGetProfile
      | 0x07 =>
          match split_fields [4]%nat body with
          | Some [f] => Ok (CmdInitCtx (le_val f))
          | _ => Err InvalidArgument
          end
      | 0x08 =>
          match split_fields [handle_size; tci_size cf; 4; 4; 4; 4]%nat body with
          | Some [h; d; f; t; l; s] =>
              Ok (CmdDeriveContext {| dc_handle := h; dc_data := d; dc_flags := le_val f;
                    dc_tci_type := le_val t; dc_target_locality := le_val l;
                    dc_svn := le_val s |})
          | _ => Err InvalidArgument
          end
      | 0x09 => rbind (parse_certify_command body) (fun c => Ok (CmdCertifyKey c))
      | 0x0A => rbind (parse_sign_command body) (fun c => Ok (CmdSign c))
      | 0x0E =>
          match split_fields [handle_size; 4]%nat body with
          | Some [h; f] => Ok (CmdRotateCtx h (le_val f))
          | _ => Err InvalidArgument
          end
      | 0x0F =>
          match split_fields [handle_size]%nat body with
          | Some [h] => Ok (CmdDestroyCtx h)
          | _ => Err InvalidArgument
          end
      | 0x10 =>
          match split_fields [4; 4]%nat body with
          | Some [o; s] => Ok (CmdGetCertificateChain (le_val o) (le_val s))
          | _ => Err InvalidArgument
          end
      | 0x80000000 =>
          match split_fields [handle_size; tci_size cf; 4; 4; 4]%nat body with
          | Some [h; d; r; t; s] =>
              Ok (CmdUpdateContextMeasurement {| uc_parent_handle := h; uc_data := d;
                    uc_reserved := le_val r; uc_tci_type := le_val t;
                    uc_reserved_svn := le_val s |})
          | _ => Err InvalidArgument
          end
      | _ => Err InvalidCommand
      end).

  (** ** Responses *)

  (** dpe/src/response.rs:192 DPE_RESPONSE_MAGIC = from_be_bytes("DPER"). *)
  Definition response_magic : N := 0x44504552.

  (** dpe/src/response.rs:183-205 [ResponseHdr]. *)
  Record response_hdr := {
    rh_magic : N;
    rh_status : N;
    rh_profile : profile
  }.

  (** dpe/src/response.rs:194-200 [ResponseHdr::new], dpe_instance.rs:188-190. *)
  Definition new_response_hdr (e : dpe_error) : response_hdr :=
    {| rh_magic := response_magic; rh_status := get_error_code e;
       rh_profile := prof cf |}.

  Definition response_hdr_bytes (h : response_hdr) : bytes :=
    le_bytes 4 (rh_magic h) ++ le_bytes 4 (rh_status h)
    ++ le_bytes 4 (profile_id (rh_profile h)).

  Definition ok_hdr_bytes : bytes := response_hdr_bytes (new_response_hdr NoError).

  (** platform/src/lib.rs MAX_CHUNK_SIZE. *)
  Definition max_chunk_size : N := 2048.

  (** crypto/src/lib.rs MAX_EXPORTED_CDI_SIZE. *)
  Definition exported_cdi_size : nat := 32%nat.

  (** dpe/src/response.rs:207-240 [GetProfileResp]. *)
  Definition get_profile_resp_bytes (support vendor_id vendor_sku : N) : bytes :=
    ok_hdr_bytes ++ le_bytes 2 0 ++ le_bytes 2 13 ++ le_bytes 4 vendor_id
    ++ le_bytes 4 vendor_sku ++ le_bytes 4 (N.of_nat (max_handles cf))
    ++ le_bytes 4 support.

  (** dpe/src/response.rs:242-248 [NewHandleResp]. *)
  Definition new_handle_resp_bytes (h : bytes) : bytes := ok_hdr_bytes ++ h.

  (** dpe/src/response.rs:250-256 [DeriveContextResp], 258-267
      [UpdateContextMeasurementResp]. *)
  Definition two_handle_resp_bytes (h1 h2 : bytes) : bytes := ok_hdr_bytes ++ h1 ++ h2.

  (** dpe/src/response.rs:435-443 [DeriveContextExportedCdiRespHdr]. *)
  Definition exported_hdr_bytes (h parent cdi : bytes) (cert_size : N) : bytes :=
    ok_hdr_bytes ++ h ++ parent ++ cdi ++ le_bytes 4 cert_size.
  Definition exported_hdr_size : nat := (12 + 16 + 16 + 32 + 4)%nat.

  (** dpe/src/response.rs:405-433 [CertifyKey*RespHdr]; [pk] is x ++ y or the
      ML-DSA public key. *)
  Definition certify_hdr_bytes (h pk : bytes) (cert_size : N) : bytes :=
    ok_hdr_bytes ++ h ++ pk ++ le_bytes 4 cert_size.

  (** dpe/src/response.rs:491-517 [SignP256Resp], [SignP384Resp],
      [SignMlDsaResp]; [sig] is r ++ s or the ML-DSA signature and its padding. *)
  Definition sign_resp_bytes (h sig : bytes) : bytes := ok_hdr_bytes ++ h ++ sig.

  (** dpe/src/response.rs:519-525 [GetCertificateChainResp]. *)
  Definition cert_chain_resp_bytes (size : N) (chunk : bytes) : bytes :=
    ok_hdr_bytes ++ le_bytes 4 size ++ chunk.
End Cfg.
