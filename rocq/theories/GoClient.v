(** GoClient.v -- the client of the verification suite (verification/client/abi.go,
    helpers.go, profile.go, errors.go) and its transport to the simulator
    (verification/sim/transport.go).  A value of a Go array or integer type is a byte
    string of that length or a number; the error texts are not modelled, only which error
    it is.  CalculateExternalMu (abi.go:981-991), which needs a hash function, and the
    test code that uses the client are not modelled. *)
From Verif Require Import Base Errors Types StateOps Env Wire Instance Commands Response X509 X509Cert RustCrypto DefaultPlatform Simulator.
Open Scope N_scope.

(** abi.go:333-346: DPEABI256Min, DPEABI384Min, DPEABI256, DPEABI384, DPEABIMldsa87. *)
Inductive go_kind := Min256 | Min384 | Full256 | Full384 | FullMldsa.

(** abi.go:349-392 [dpeProfileImplementsTypeConstraints], profile.go:13-24: the target
    profile of the type parameters.  Other type parameters are an error there; no exported
    type has them. *)
Definition target_profile (k : go_kind) : N :=
  match k with Min256 => 1 | Min384 => 2 | Full256 => 3 | Full384 => 4 | FullMldsa => 5 end.
(** profile.go:105-132: the sizes of the type parameters Curve, ... *)
Definition curve_len (k : go_kind) : nat :=
  match k with Min256 | Full256 => 32 | Min384 | Full384 => 48 | FullMldsa => N.to_nat 2592 end%nat.
(** ... Digest and SignData (profile.go:202-224), ... *)
Definition digest_len (k : go_kind) : nat := match k with Min256 | Full256 => 32 | _ => 48 end%nat.
Definition sign_data_len (k : go_kind) : nat :=
  match k with Min256 | Full256 => 32 | Min384 | Full384 => 48 | FullMldsa => 64 end%nat.
(** ... and Cert (profile.go:144-163). *)
Definition cert_len (k : go_kind) : N :=
  match k with Min256 | Min384 => 2048 | Full256 | Full384 => 11 * 1024 | FullMldsa => 22 * 1024 end.

(** abi.go:51-109: command codes of the profile versions. *)
Record go_codes := {
  gc_init : N; gc_derive : N; gc_certify : N; gc_sign : N; gc_rotate : N; gc_destroy : N; gc_chain : N; gc_update : N
}.
Definition codes_v08 : go_codes :=
  {| gc_init := 0x5; gc_derive := 0x6; gc_certify := 0x7; gc_sign := 0x8; gc_rotate := 0xE; gc_destroy := 0xF;
     gc_chain := 0x80; gc_update := 0x80000000 |}.
Definition codes_v09 : go_codes :=
  {| gc_init := 0x7; gc_derive := 0x8; gc_certify := 0x9; gc_sign := 0xa; gc_rotate := 0xe; gc_destroy := 0xf;
     gc_chain := 0x10; gc_update := 0x80000000 |}.

(** abi.go:321-331 [DPEABI]. *)
Record go_client := {
  cl_kind : go_kind; cl_codes : go_codes; cl_profile : N; cl_major : N; cl_minor : N;
  cl_vendor_id : N; cl_vendor_sku : N; cl_max_tci : N; cl_flags : N
}.

(** Errors: of the transport, a response that ends too early, a wrong magic word, a status
    of the device, arguments of a wrong length, a certificate that is too large, an empty
    chain, another profile, an unknown version. *)
Inductive go_error :=
| GoTransport | GoShort | GoMagic | GoStatus (s : N) | GoUsage | GoCertTooLarge | GoEmptyChain | GoProfile | GoVersion.
(** [GoPanic]: a slice out of range; [GoFuel]: still in the loop of GetCertificateChain. *)
Inductive go_result (A : Type) := GoOk (a : A) | GoErr (e : go_error) | GoPanic | GoFuel.
Arguments GoOk {A} a.
Arguments GoErr {A} e.
Arguments GoPanic {A}.
Arguments GoFuel {A}.

(** What the calls return: nothing, GetProfileResp, a handle, DeriveContextResp,
    CertifiedKey, DPESignedHash, UpdateContextMeasurementResp. *)
Inductive go_value :=
| VNone
| VProfile (profile major minor vendor_id vendor_sku max_tci flags : N)
| VHandle (h : bytes)
| VDerived (h parent cdi : bytes) (size : N) (cert : bytes)
| VKey (h x y cert : bytes)
| VSigned (h r s sig : bytes)
| VUpdated (h parent : bytes).

(** Go's [binary.Read] into a structure of fixed-size fields: the fields and what is left;
    an error if there are not enough bytes. *)
Fixpoint read_fields (ls : list nat) (b : bytes) : option (list bytes * bytes) :=
  match ls with
  | [] => Some ([], b)
  | n :: ls' =>
      if Nat.leb n (length b)
      then match read_fields ls' (skipn n b) with
           | Some (fs, r) => Some (firstn n b :: fs, r)
           | None => None
           end
      else None
  end.

(** The calls of a client. *)
Inductive go_call :=
| GcGetProfile
| GcInit (flags : N)
| GcDerive (h data : bytes) (flags tci_type target_locality : N)
| GcDeriveABI (h data : bytes) (flags tci_type target_locality svn : N)
| GcCertify (h label : bytes) (format flags : N)
| GcSign (h label : bytes) (flags : N) (tbs : bytes)
| GcSignRaw (h label raw : bytes)
| GcRotate (h : bytes) (flags : N)
| GcDestroy (h : bytes)
| GcUpdate (h data : bytes) (tci_type : N).

Section Client.
  (** client.go [Transport.SendCmd]; [None]: an error. *)
  Variable T : Type.
  Variable send : bytes -> T -> option bytes * T.

  (** helpers.go:26-57 [execCommand], 13-22 [checkRespHdr]; [ls]: the fields of the
      structure that is read.  The result is the profile of the response, the fields and
      the reader behind them. *)
  Definition go_exec (code profile : N) (cmd : bytes) (ls : list nat) (t : T) : go_result (N * list bytes * bytes) * T :=
    match send (le_bytes 4 0x44504543 ++ le_bytes 4 code ++ le_bytes 4 profile ++ cmd) t with
    | (None, t') => (GoErr GoTransport, t')
    | (Some resp, t') =>
        (match read_fields [4; 4; 4]%nat resp with
         | Some ([m; st; p], r) =>
             if negb (N.eqb (le_val m) 0x44504552) then GoErr GoMagic
             else if negb (N.eqb (le_val st) 0) then GoErr (GoStatus (le_val st))
             else match read_fields ls r with
                  | Some (fs, r') => GoOk (le_val p, fs, r')
                  | None => GoErr GoShort
                  end
         | _ => GoErr GoShort
         end, t')
    end.

  (** Go on with the result of [execCommand] if it is no error. *)
  Definition go_then {A B} (m : go_result A * T) (f : A -> go_result B) : go_result B * T :=
    let (r, t) := m in
    (match r with GoOk a => f a | GoErr e => GoErr e | GoPanic => GoPanic | GoFuel => GoFuel end, t).

  (** abi.go:474-506 [getProfile]. *)
  Definition go_get_profile (t : T) : go_result go_value * T :=
    go_then (go_exec 0x1 0 [] [2; 2; 4; 4; 4; 4]%nat t) (fun x =>
      match x with
      | (p, [ma; mi; vi; vs; mt; fl], _) =>
          GoOk (VProfile p (le_val ma) (le_val mi) (le_val vi) (le_val vs) (le_val mt) (le_val fl))
      | _ => GoErr GoShort
      end).

  (** abi.go:395-425 [newDPEABI].  MaxTciNodes is not copied: it stays 0. *)
  Definition go_new (k : go_kind) (t : T) : go_result go_client * T :=
    go_then (go_get_profile t) (fun v =>
      match v with
      | VProfile p ma mi vi vs _ fl =>
          if negb (N.eqb p (target_profile k)) then GoErr GoProfile
          else
            let client codes := GoOk {| cl_kind := k; cl_codes := codes; cl_profile := p; cl_major := ma; cl_minor := mi;
                                        cl_vendor_id := vi; cl_vendor_sku := vs; cl_max_tci := 0; cl_flags := fl |} in
            if N.eqb ma 0 && N.eqb mi 8 then client codes_v08
            else if N.eqb ma 0 && N.leb 9 mi then client codes_v09
            else GoErr GoVersion
      | _ => GoErr GoShort
      end).

  Section Calls.
  Variable c : go_client.
  Notation k := (cl_kind c).

  (** A certificate of [n] bytes, read with [binary.Read] from what is left. *)
  Definition go_cert (n : N) (r : bytes) : option bytes :=
    if N.leb n (N.of_nat (length r)) then Some (firstn (N.to_nat n) r) else None.

  (** abi.go:629-670 [DeriveContextABI]: no bound on the size of the certificate. *)
  Definition go_derive_abi (h data : bytes) (flags tci_type target_locality svn : N) (t : T) : go_result go_value * T :=
    let cmd := h ++ data ++ le_bytes 4 flags ++ le_bytes 4 tci_type ++ le_bytes 4 target_locality ++ le_bytes 4 svn in
    if contains flags (bit 23) then
      go_then (go_exec (gc_derive (cl_codes c)) (cl_profile c) cmd [16; 16; 32; 4]%nat t) (fun x =>
        match x with
        | (_, [x; y; cdi; n], r) =>
            match go_cert (le_val n) r with
            | Some cert => GoOk (VDerived x y cdi (le_val n) cert)
            | None => GoErr GoShort
            end
        | _ => GoErr GoShort
        end)
    else
      go_then (go_exec (gc_derive (cl_codes c)) (cl_profile c) cmd [16; 16]%nat t) (fun x =>
        match x with
        | (_, [x; y], _) => GoOk (VDerived x y (repeat 0 32) 0 [])
        | _ => GoErr GoShort
        end).

  (** abi.go:526-587 [CertifyKeyABI] and the end of 713-745 [CertifyKey].  For ML-DSA the
      second half of the key is not set. *)
  Definition go_certify_abi (h : bytes) (flags format : N) (label : bytes) (t : T) : go_result go_value * T :=
    let cmd := h ++ le_bytes 4 flags ++ le_bytes 4 format ++ label in
    let finish (x pkx pky n r : bytes) :=
      if N.ltb (cert_len k) (le_val n) then GoErr GoCertTooLarge
      else match go_cert (le_val n) r with
           | Some cert => GoOk (VKey x pkx pky cert)
           | None => GoErr GoShort
           end in
    if N.eqb (cl_profile c) 5 then
      go_then (go_exec (gc_certify (cl_codes c)) (cl_profile c) cmd [16; curve_len k; 4]%nat t) (fun x =>
        match x with
        | (_, [x; pk; n], r) => finish x pk (repeat 0 (curve_len k)) n r
        | _ => GoErr GoShort
        end)
    else
      go_then (go_exec (gc_certify (cl_codes c)) (cl_profile c) cmd [16; curve_len k; curve_len k; 4]%nat t) (fun x =>
        match x with
        | (_, [x; px; py; n], r) => finish x px py n r
        | _ => GoErr GoShort
        end).

  (** abi.go:685-694 [SignABI] and the end of 807-864 [Sign]; the fields of the signature
      are those of the type parameter Signature. *)
  Definition go_sign_abi (h label : bytes) (flags : N) (tbs : bytes) (t : T) : go_result go_value * T :=
    let cmd := h ++ label ++ le_bytes 4 flags ++ tbs in
    match k with
    | FullMldsa =>
        go_then (go_exec (gc_sign (cl_codes c)) (cl_profile c) cmd [16%nat; N.to_nat 4627] t) (fun x =>
          match x with
          | (_, [x; sig], _) => GoOk (VSigned x [] [] sig)
          | _ => GoErr GoShort
          end)
    | _ =>
        go_then (go_exec (gc_sign (cl_codes c)) (cl_profile c) cmd [16; digest_len k; digest_len k]%nat t) (fun x =>
          match x with
          | (_, [x; r; s], _) => GoOk (VSigned x r s [])
          | _ => GoErr GoShort
          end)
    end.

  (** abi.go:867-940 [SignRaw]: the data is padded with zeros to 1024 bytes. *)
  Definition go_sign_raw (h label raw : bytes) (t : T) : go_result go_value * T :=
    if negb (N.eqb (cl_profile c) 5) then (GoErr GoUsage, t)
    else if negb (Nat.eqb (length label) (digest_len k)) then (GoErr GoUsage, t)
    else if N.ltb 1024 (N.of_nat (length raw)) then (GoErr GoUsage, t)
    else
      let cmd := h ++ label ++ le_bytes 4 1 ++ le_bytes 4 (N.of_nat (length raw))
                 ++ raw ++ repeat 0 (N.to_nat 1024 - length raw) in
      go_then (go_exec (gc_sign (cl_codes c)) (cl_profile c) cmd [16%nat; N.to_nat 4627; 1%nat] t) (fun x =>
        match x with
        | (_, [x; sig; _], _) => GoOk (VSigned x [] [] sig)
        | _ => GoErr GoShort
        end).

  (** A response that is one handle, or two. *)
  Definition go_handle (code : N) (cmd : bytes) (t : T) : go_result go_value * T :=
    go_then (go_exec code (cl_profile c) cmd [16]%nat t) (fun x =>
      match x with (_, [x], _) => GoOk (VHandle x) | _ => GoErr GoShort end).

  (** abi.go:697-705 [InitializeContext], 708-710 [GetProfile], 713-721 [CertifyKey],
      748-754 [DestroyContext], 767-791 [DeriveContext], 794-804 [RotateContextHandle],
      807-825 [Sign], 996-1021 [UpdateContextMeasurement]. *)
  Definition go_do (q : go_call) (t : T) : go_result go_value * T :=
    match q with
    | GcGetProfile => go_get_profile t
    | GcInit flags => go_handle (gc_init (cl_codes c)) (le_bytes 4 flags) t
    | GcDerive h data flags tci_type target_locality =>
        if negb (Nat.eqb (length data) (digest_len k)) then (GoErr GoUsage, t)
        else go_derive_abi h data flags tci_type target_locality 0 t
    | GcDeriveABI h data flags tci_type target_locality svn => go_derive_abi h data flags tci_type target_locality svn t
    | GcCertify h label format flags =>
        if negb (Nat.eqb (length label) (digest_len k)) then (GoErr GoUsage, t)
        else go_certify_abi h flags format label t
    | GcSign h label flags tbs =>
        if negb (Nat.eqb (length label) (digest_len k)) then (GoErr GoUsage, t)
        else if negb (Nat.eqb (length tbs) (sign_data_len k)) then (GoErr GoUsage, t)
        else go_sign_abi h label flags tbs t
    | GcSignRaw h label raw => go_sign_raw h label raw t
    | GcRotate h flags => go_handle (gc_rotate (cl_codes c)) (h ++ le_bytes 4 flags) t
    | GcDestroy h =>
        go_then (go_exec (gc_destroy (cl_codes c)) (cl_profile c) h [] t) (fun _ => GoOk VNone)
    | GcUpdate h data tci_type =>
        if negb (Nat.eqb (length data) (digest_len k)) then (GoErr GoUsage, t)
        else
          go_then (go_exec (gc_update (cl_codes c)) (cl_profile c)
                     (h ++ data ++ le_bytes 4 0 ++ le_bytes 4 tci_type ++ le_bytes 4 0) [16; 16]%nat t) (fun x =>
            match x with (_, [x; y], _) => GoOk (VUpdated x y) | _ => GoErr GoShort end)
    end.

  (** abi.go:590-626 [GetCertificateChainABI]: the loop, with the offset and the bytes
      collected so far.  [offset += 2048] is arithmetic of uint32. *)
  Fixpoint go_chain_loop (n : nat) (offset : N) (acc : bytes) (t : T) : go_result bytes * T :=
    let done := if Nat.eqb (length acc) 0 then GoErr GoEmptyChain else GoOk acc in
    match n with
    | O => (GoFuel, t)
    | S n' =>
        match go_exec (gc_chain (cl_codes c)) (cl_profile c) (le_bytes 4 offset ++ le_bytes 4 2048) [4%nat; N.to_nat 2048] t with
        | (GoOk (_, [size; chunk], _), t') =>
            if N.ltb 2048 (le_val size) then (GoPanic, t')
            else
              let acc' := acc ++ firstn (N.to_nat (le_val size)) chunk in
              if N.ltb (le_val size) 2048
              then (if Nat.eqb (length acc') 0 then GoErr GoEmptyChain else GoOk acc', t')
              else go_chain_loop n' (N.modulo (offset + 2048) (2 ^ 32)) acc' t'
        | (GoOk _, t') => (GoErr GoShort, t')
        | (GoErr (GoStatus 3), t') => (done, t')
        | (GoErr e, t') => (GoErr e, t')
        | (GoPanic, t') => (GoPanic, t')
        | (GoFuel, t') => (GoFuel, t')
        end
    end.
  Definition go_chain (n : nat) (t : T) : go_result bytes * T := go_chain_loop n 0 [] t.
  End Calls.
End Client.

(** ** The simulator as a transport *)

(** abi.go:33-49 [Support]. *)
Record go_support := {
  gs_simulation : bool; gs_recursive : bool; gs_auto_init : bool; gs_rotate_context : bool; gs_x509 : bool; gs_csr : bool;
  gs_is_symmetric : bool; gs_internal_info : bool; gs_internal_dice : bool; gs_retain_parent_context : bool;
  gs_cdi_export : bool; gs_critical : bool
}.

(** abi.go:943-979 [ToFlags]. *)
Definition to_flags (s : go_support) : N :=
  let f (b : bool) (i m : N) := if b then N.lor m (bit i) else m in
  f (gs_cdi_export s) 18 (f (gs_retain_parent_context s) 19 (f (gs_internal_dice s) 21 (f (gs_internal_info s) 22
    (f (gs_is_symmetric s) 24 (f (gs_csr s) 25 (f (gs_x509 s) 26 (f (gs_rotate_context s) 27
      (f (gs_auto_init s) 29 (f (gs_recursive s) 30 (f (gs_simulation s) 31 0)))))))))).

(** transport.go:57-94 [PowerOn]: the command line; IsSymmetric has no option. *)
Definition power_on_args (s : go_support) : sim_args :=
  {| sa_simulation := gs_simulation s; sa_recursive := gs_recursive s; sa_auto_init := gs_auto_init s;
     sa_rotate_context := gs_rotate_context s; sa_x509 := gs_x509 s; sa_csr := gs_csr s; sa_internal_info := gs_internal_info s;
     sa_internal_dice := gs_internal_dice s; sa_retain_parent_context := gs_retain_parent_context s;
     sa_cdi_export := gs_cdi_export s; sa_critical := gs_critical s |}.

Section SimTransport.
  Variable cf : config.
  Variable R : Type.
  Variable pr : primitives R.
  Variables chain issuer serial ski : bytes.

  (** transport.go:145-172 [SendCmd] in locality [loc].  A simulator that panicked has
      closed the connection, and nothing can connect to it any more: [None].  The message
      is assumed to arrive in one [read]. *)
  Definition sim_send (loc : N) (buf : bytes) (t : option (world (rust_c R) unit)) : option bytes * option (world (rust_c R) unit) :=
    match t with
    | None => (None, None)
    | Some w =>
        match handle_request cf R pr chain issuer serial ski {| cn_read := Some (le_bytes 4 loc ++ buf); cn_open := true |} w with
        | (Answered b, w') => (Some b, Some w')
        | (Panicked, _) => (Some [], None)
        end
    end.
End SimTransport.

(** ** Status codes *)

(** errors.go:12-37 and [Error] 39-79: which text is shown for a status. *)
Inductive status_text :=
| TxInternalError | TxInvalidCommand | TxInvalidArgument | TxSessionExhausted | TxInitializationSeedLock | TxOutOfMemory
| TxCancelledCommand | TxInvalidHandle | TxInvalidLocality | TxHandleDefined | TxArgumentNotSupported | TxAlreadyInitialized
| TxInvalidParentLocality | TxMaxTcis | TxPlatformError | TxCryptoError | TxValidationError | TxUnrecognized (s : N).
Definition go_status_text (s : N) : status_text :=
  match s with
  | 0x1 => TxInternalError | 0x2 => TxInvalidCommand | 0x3 => TxInvalidArgument | 0x4 => TxSessionExhausted
  | 0x5 => TxInitializationSeedLock | 0x6 => TxOutOfMemory | 0x7 => TxCancelledCommand
  | 0x80 => TxInvalidHandle | 0x81 => TxInvalidLocality | 0x82 => TxHandleDefined | 0x83 => TxArgumentNotSupported
  | 0x84 => TxAlreadyInitialized | 0x85 => TxInvalidParentLocality | 0x91 => TxMaxTcis
  | 0x01000000 => TxPlatformError | 0x02000000 => TxCryptoError | 0x03000000 => TxValidationError
  | _ => TxUnrecognized s
  end.
