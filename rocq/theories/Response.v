(** Response.v -- response values, their bytes and their parser
    (dpe/src/response.rs), and the entry points that return response values
    (dpe/src/commands/mod.rs, dpe/src/dpe_instance.rs). *)
From Verif Require Import Base Errors Types StateOps Env Wire Instance Commands.
Open Scope N_scope.
Open Scope dpe_scope.

(** dpe/src/response.rs:22-36 [Response] with the structures of 207-525.  Public
    key and signature are kept as one byte string (x ++ y, r ++ s, or the ML-DSA
    value, the signature with its padding byte). *)
Inductive response :=
| RespGetProfile (h : response_hdr) (major minor vendor_id vendor_sku max_tci flags : N)
| RespInitCtx (h : response_hdr) (handle : bytes)
| RespDeriveContext (h : response_hdr) (handle parent : bytes)
| RespExportedCdi (h : response_hdr) (handle parent cdi : bytes) (size : N) (cert : bytes)
| RespRotateCtx (h : response_hdr) (handle : bytes)
| RespCertifyKey (p : profile) (h : response_hdr) (handle pk : bytes) (size : N) (cert : bytes)
| RespSign (p : profile) (h : response_hdr) (handle sig : bytes)
| RespDestroyCtx (h : response_hdr)
| RespCertificateChain (h : response_hdr) (size : N) (chunk : bytes)
| RespUpdate (h : response_hdr) (handle parent : bytes)
| RespError (h : response_hdr).

(** The [IntoBytes] fields of the structures, in order. *)
Definition hdr_fields (h : response_hdr) : list bytes :=
  [le_bytes 4 (rh_magic h); le_bytes 4 (rh_status h); le_bytes 4 (profile_id (rh_profile h))].
Definition response_fields (r : response) : list bytes :=
  match r with
  | RespGetProfile h ma mi vi vs mt fl =>
      hdr_fields h ++ [le_bytes 2 ma; le_bytes 2 mi; le_bytes 4 vi; le_bytes 4 vs; le_bytes 4 mt; le_bytes 4 fl]
  | RespInitCtx h x | RespRotateCtx h x => hdr_fields h ++ [x]
  | RespDeriveContext h x y | RespUpdate h x y => hdr_fields h ++ [x; y]
  | RespExportedCdi h x y cdi n cert => hdr_fields h ++ [x; y; cdi; le_bytes 4 n; cert]
  | RespCertifyKey _ h x pk n cert => hdr_fields h ++ [x; pk; le_bytes 4 n; cert]
  | RespSign _ h x sg => hdr_fields h ++ [x; sg]
  | RespDestroyCtx h | RespError h => hdr_fields h
  | RespCertificateChain h n chunk => hdr_fields h ++ [le_bytes 4 n; chunk]
  end.

(** dpe/src/response.rs:39-54 [as_bytes]. *)
Definition response_bytes (r : response) : bytes := concat (response_fields r).

(** [slice.get(..n)] with an internal error. *)
Definition prefix_or (b : bytes) (n : N) (e : internal_code) : result bytes :=
  if N.leb n (N.of_nat (length b)) then Ok (firstn (N.to_nat n) b) else Err (InternalError e).

Section Cfg.
  Variable cf : config.

  (** crypto/src/ecdsa.rs, ml_dsa.rs: sizes of the public key and of the
      signature with padding. *)
  Definition pk_size (p : profile) : nat :=
    match p with P256Sha256 => 64 | P384Sha384 => 96 | Mldsa87 => N.to_nat mldsa87_pk_size end%nat.
  Definition sig_size (p : profile) : nat :=
    match p with P256Sha256 => 64 | P384Sha384 => 96 | Mldsa87 => N.to_nat mldsa87_sig_size + 1 end%nat.

  (** dpe/src/response.rs:60-75 and the [as_bytes_partial] of 277-283, 348-355,
      365-372, 384-391: everything up to the end of the certificate.  The sum
      [size_of - MAX_CERT_SIZE + size] cannot overflow a 64-bit [usize]; on
      32-bit targets it could for sizes close to 2^32 (not modelled). *)
  Definition response_bytes_partial (r : response) : result bytes :=
    match r with
    | RespExportedCdi _ _ _ _ n cert =>
        prefix_or (response_bytes r) (N.of_nat (length (response_bytes r)) - max_cert_size cf + n)
                  DeriveCtxRespSliceOob
    | RespCertifyKey p _ _ _ n cert =>
        prefix_or (response_bytes r) (N.of_nat (length (response_bytes r)) - max_cert_size cf + n)
                  (match p with
                   | P256Sha256 => CertifyKeyP256RespSliceOob
                   | P384Sha384 => CertifyKeyP384RespSliceOob
                   | Mldsa87 => CertifyKeyMldsa87RespSliceOob
                   end)
    | _ => Ok (response_bytes r)
    end.

  (** dpe/src/response.rs:327-339 [CertifyKeyResp::cert]; on other responses
      there is no such function. *)
  Definition response_cert (r : response) : result bytes :=
    match r with
    | RespCertifyKey _ _ _ _ n cert => prefix_or cert n CertifyKeyCertSliceOob
    | _ => Err InvalidArgument
    end.

  (** dpe/src/lib.rs:87-96: the [TryFromBytes] of [DpeProfile] accepts the
      discriminants of the profiles compiled in. *)
  Definition profile_of (v : N) : option profile :=
    if N.eqb v 3 && feat_p256 cf then Some P256Sha256
    else if N.eqb v 4 && feat_p384 cf then Some P384Sha384
    else if N.eqb v 5 && feat_mldsa cf then Some Mldsa87
    else None.

  Definition sign_profile (c : sign_command) : profile :=
    match c with
    | SignP256 _ => P256Sha256
    | SignP384 _ => P384Sha384
    | SignMldsa87 _ | SignMldsa87Raw _ => Mldsa87
    end.

  (** Field sizes of the structure that answers a command
      (dpe/src/response.rs:89-179, dpe/src/commands/mod.rs:361-407). *)
  Definition response_layout (cmd : command) : list nat :=
    ([4; 4; 4] ++
     match cmd with
     | CmdGetProfile => [2; 2; 4; 4; 4; 4]
     | CmdInitCtx _ | CmdRotateCtx _ _ => [handle_size]
     | CmdDeriveContext d =>
         if df_export_cdi (dc_flags d)
         then [handle_size; handle_size; exported_cdi_size; 4; N.to_nat (max_cert_size cf)]
         else [handle_size; handle_size]
     | CmdCertifyKey c => [handle_size; pk_size (certify_profile c); 4; N.to_nat (max_cert_size cf)]
     | CmdSign c => [handle_size; sig_size (sign_profile c)]
     | CmdDestroyCtx _ => []
     | CmdGetCertificateChain _ _ => [4; N.to_nat max_chunk_size]
     | CmdUpdateContextMeasurement _ => [handle_size; handle_size]
     end)%nat.

  Definition response_size (cmd : command) : nat := list_sum (response_layout cmd).

  (** The structure built from its fields; [None] when zerocopy rejects the
      bytes (the only partial field is the profile). *)
  Definition build_response (cmd : command) (fs : list bytes) : option response :=
    match fs with
    | m :: st :: p :: fs' =>
        match profile_of (le_val p) with
        | None => None
        | Some p =>
            let h := {| rh_magic := le_val m; rh_status := le_val st; rh_profile := p |} in
            match cmd, fs' with
            | CmdGetProfile, [ma; mi; vi; vs; mt; fl] =>
                Some (RespGetProfile h (le_val ma) (le_val mi) (le_val vi) (le_val vs) (le_val mt) (le_val fl))
            | CmdInitCtx _, [x] => Some (RespInitCtx h x)
            | CmdRotateCtx _ _, [x] => Some (RespRotateCtx h x)
            | CmdDeriveContext _, [x; y] => Some (RespDeriveContext h x y)
            | CmdDeriveContext _, [x; y; cdi; n; cert] => Some (RespExportedCdi h x y cdi (le_val n) cert)
            | CmdCertifyKey c, [x; pk; n; cert] =>
                Some (RespCertifyKey (certify_profile c) h x pk (le_val n) cert)
            | CmdSign c, [x; sg] => Some (RespSign (sign_profile c) h x sg)
            | CmdDestroyCtx _, [] => Some (RespDestroyCtx h)
            | CmdGetCertificateChain _ _, [n; chunk] => Some (RespCertificateChain h (le_val n) chunk)
            | CmdUpdateContextMeasurement _, [x; y] => Some (RespUpdate h x y)
            | _, _ => None
            end
        end
    | _ => None
    end.

  (** zerocopy [try_read_from_prefix] of that structure. *)
  Definition read_prefix (cmd : command) (b : bytes) : option response :=
    match split_fields (response_layout cmd) b with
    | Some fs => build_response cmd fs
    | None => None
    end.

  (** size_of::<Response>(): every structure fits; the exact value (an enum tag
      and alignment on top of the largest variant) does not matter. *)
  Definition response_union_size : nat :=
    (12 + 2 * handle_size + Nat.max (N.to_nat mldsa87_sig_size + 1)
                              (N.to_nat mldsa87_pk_size + 4 + N.to_nat (max_cert_size cf))
        + N.to_nat max_chunk_size)%nat.

  (** dpe/src/response.rs:81-182 [try_read_from_bytes]: the input is copied into
      a zeroed buffer of [size_of::<Response>()] bytes first. *)
  Definition try_read_from_bytes (cmd : command) (b : bytes) : result response :=
    let n := Nat.min (length b) response_union_size in
    let buf := firstn n b ++ repeat 0 (response_union_size - n) in
    ok_or (read_prefix cmd buf) InvalidArgument.
End Cfg.

Section Execute.
  Variable cf : config.
  Variables C P : Type.
  Variable co : crypto_ops C.
  Variable po : platform_ops P.
  Notation M := (M C P).
  Variable cert_gen : cert_kind -> cert_args -> nat -> state -> C -> P -> bytes ->
                      result cert_result * C * P * bytes.

  (** zerocopy [try_read_from_bytes]: the length must match exactly. *)
  Definition read_exact (cmd : command) (b : bytes) : option response :=
    if Nat.eqb (length b) (response_size cf cmd) then read_prefix cf cmd b else None.

  (** dpe/src/commands/mod.rs:334-408 [CommandExecution::execute]: run with a
      zeroed buffer of exactly the size of the response structure (all sizes are
      multiples of 4, so [div_ceil(4)] adds nothing) and read it back. *)
  Definition execute (cmd : command) (locality : N) : M response :=
    let! (_, buf) := with_out C P (repeat 0 (response_size cf cmd))
                       (exec_command cf C P co po cert_gen cmd locality) in
    lift (ok_or (read_exact cmd buf) (InternalError ResponseDeserializationFailed)).

  (** dpe/src/dpe_instance.rs:160-186 [execute_serialized_command].  A command
      that does not parse is an [Err]; any later error becomes an error
      response. *)
  Definition execute_serialized_command (locality : N) (b : bytes) : M response :=
    let! cmd := lift (deserialize_command cf b) in
    fun w => match execute cmd locality w with
             | (Err e, w') => (Ok (RespError (new_response_hdr cf e)), w')
             | r => r
             end.
End Execute.
