(** Errors.v -- error values of the DPE and of its back ends, and the result
    type of the model. *)
From Verif Require Import Base.
Open Scope N_scope.

(** dpe/src/error.rs:29-67 [InternalErrorCode]. *)
Inductive internal_code :=
| DeriveCtxRespSliceOob | CertifyKeyCertSliceOob | CertifyKeyP256RespSliceOob
| CertifyKeyP384RespSliceOob | CertifyKeyMldsa87RespSliceOob | Asn1SizeOverflow
| EmptyTciNodes | EncodeBytesOverflow | EncodeBytesSliceOob | EncodeByteOverflow
| IntegerOffsetOob | TbsSliceOob | CsrTbsSliceOob | CmsCsrRangeOob
| TcbCountOverflow | KeyIdHashTooSmall | SerialNumberSliceOob | CertSizeOverflow
| CsrSizeOverflow | IssuerNameTooLong | MissingExportedCdiHandle
| HandleGenerationExhausted | DigestLengthMismatch | InputInfoProfileSliceOob
| InputInfoRemainderSliceOob | CertChainChunkSliceOob | ChildIndexOob
| ChildrenBitmapIndexOob | ParentChainIndexOob | ContextIndexOob
| ActiveContextNotFound | DescendantIndexOob | TciNodeArrayOverflow
| TciNodeCountExceeded | DestroyParentIndexOob | InitContextIndexOob
| ResponseDeserializationFailed.

(** platform/src/lib.rs:81-95 [PlatformError]. *)
Inductive platform_error :=
| PECertificateChain | PENotImplemented | PEIssuerName (c : N) | PEPrint (c : N)
| PESerialNumber (c : N) | PESubjectKeyIdentifier (c : N) | PECertValidity (c : N)
| PEIssuerKeyIdentifier (c : N) | PESubjectAlternativeName (c : N)
| PEMissingUeid | PEInvalidUeid.

(** platform/src/lib.rs:98-103 [discriminant]. *)
Definition platform_discr (e : platform_error) : N :=
  match e with
  | PECertificateChain => 1 | PENotImplemented => 2 | PEIssuerName _ => 3
  | PEPrint _ => 4 | PESerialNumber _ => 5 | PESubjectKeyIdentifier _ => 6
  | PECertValidity _ => 7 | PEIssuerKeyIdentifier _ => 8
  | PESubjectAlternativeName _ => 9 | PEMissingUeid => 10 | PEInvalidUeid => 11
  end.

(** crypto/src/lib.rs:91-103 [CryptoError]. *)
Inductive crypto_error :=
| CEAbstractionLayer (c : N) | CECryptoLib (c : N) | CESize | CENotImplemented
| CEHash (c : N) | CEInvalidExportedCdiHandle | CEExportedCdiHandleDuplicateCdi
| CEExportedCdiHandleLimitExceeded | CEMismatchedAlgorithm.

(** crypto/src/lib.rs:106-118 [discriminant]. *)
Definition crypto_discr (e : crypto_error) : N :=
  match e with
  | CEAbstractionLayer _ => 1 | CECryptoLib _ => 2 | CESize => 3
  | CENotImplemented => 4 | CEHash _ => 5 | CEInvalidExportedCdiHandle => 6
  | CEExportedCdiHandleDuplicateCdi => 7 | CEExportedCdiHandleLimitExceeded => 8
  | CEMismatchedAlgorithm => 9
  end.

(** dpe/src/validation.rs:15-43 [ValidationError]. *)
Inductive validation_error :=
| MultipleNormalConnectedComponents | CyclesInTree | InactiveContextInvalidParent
| InactiveContextWithChildren | BadContextState | BadContextType
| InactiveContextWithMeasurement | MixedContextLocality | MultipleDefaultContexts
| SimulationNotSupported | ParentDoesNotExist | InternalDiceNotSupported
| InternalInfoNotSupported | ChildDoesNotExist | InactiveContextWithFlagSet
| LocalityMismatch | DanglingRetiredContext | MixedContextTypeConnectedComponents
| ChildWithMultipleParents | ParentChildLinksCorrupted | AllowCaNotSupported
| AllowX509NotSupported | InactiveParent | InactiveChild
| DpeNotMarkedInitialized | InvalidMarker | VersionMismatch.

(** dpe/src/validation.rs:46-48 [discriminant]. *)
Definition validation_discr (e : validation_error) : N :=
  match e with
  | MultipleNormalConnectedComponents => 0 | CyclesInTree => 1
  | InactiveContextInvalidParent => 2 | InactiveContextWithChildren => 3
  | BadContextState => 4 | BadContextType => 5
  | InactiveContextWithMeasurement => 6 | MixedContextLocality => 7
  | MultipleDefaultContexts => 8 | SimulationNotSupported => 9
  | ParentDoesNotExist => 10 | InternalDiceNotSupported => 11
  | InternalInfoNotSupported => 12 | ChildDoesNotExist => 13
  | InactiveContextWithFlagSet => 14 | LocalityMismatch => 15
  | DanglingRetiredContext => 16 | MixedContextTypeConnectedComponents => 17
  | ChildWithMultipleParents => 18 | ParentChildLinksCorrupted => 19
  | AllowCaNotSupported => 20 | AllowX509NotSupported => 21
  | InactiveParent => 22 | InactiveChild => 23
  | DpeNotMarkedInitialized => 24 | InvalidMarker => 25 | VersionMismatch => 26
  end.

(** dpe/src/error.rs:160-192 [DpeErrorCode]. *)
Inductive dpe_error :=
| NoError | InternalError (c : internal_code) | InvalidCommand | InvalidArgument
| SessionExhausted | InitializationSeedLocked | OutOfMemory | CancelledCommand
| InvalidHandle | InvalidLocality | HandleDefined | ArgumentNotSupported
| AlreadyInitialized | InvalidParentLocality
| X509CsrUnset | X509InvalidState | X509SkipsExhausted | X509InvalidWidth
| X509AlgorithmMismatch | MaxTcis | InvalidMutRefBuf | InvalidResponseBuf
| UninitializedResponseHeader
| PlatformErr (e : platform_error) | CryptoErr (e : crypto_error)
| ValidationErr (e : validation_error).

(** dpe/src/error.rs:222-227 [discriminant]: the repr(u32) discriminants of
    dpe/src/error.rs:163-192. *)
Definition dpe_discr (e : dpe_error) : N :=
  match e with
  | NoError => 0 | InternalError _ => 1 | InvalidCommand => 2
  | InvalidArgument => 3 | SessionExhausted => 4 | InitializationSeedLocked => 5
  | OutOfMemory => 6 | CancelledCommand => 7
  | InvalidHandle => 0x80 | InvalidLocality => 0x81 | HandleDefined => 0x82
  | ArgumentNotSupported => 0x83 | AlreadyInitialized => 0x84
  | InvalidParentLocality => 0x85 | X509CsrUnset => 0x86
  | X509InvalidState => 0x87 | X509SkipsExhausted => 0x88
  | X509InvalidWidth => 0x89 | X509AlgorithmMismatch => 0x90
  | MaxTcis => 0x91 | InvalidMutRefBuf => 0x92 | InvalidResponseBuf => 0x93
  | UninitializedResponseHeader => 0x94
  | PlatformErr _ => 0x01000000 | CryptoErr _ => 0x02000000
  | ValidationErr _ => 0x03000000
  end.

(** dpe/src/error.rs:229-236 [get_error_code]. *)
Definition get_error_code (e : dpe_error) : N :=
  match e with
  | PlatformErr p => N.lor (dpe_discr e) (platform_discr p)
  | CryptoErr c => N.lor (dpe_discr e) (crypto_discr c)
  | ValidationErr v => N.lor (dpe_discr e) (validation_discr v)
  | _ => dpe_discr e
  end.

(** Ways the Rust code could abort instead of returning: out-of-bounds
    indexing, overflow of a checked arithmetic operation, a failing [assert!],
    an unbounded loop or recursion (modelled by running out of fuel). *)
Inductive crash := CrashIndex | CrashOverflow | CrashAssert | CrashFuel.

(** Result of a modelled function: Rust's [Result<A, DpeErrorCode>] plus an
    explicit abort. *)
Inductive result (A : Type) :=
| Ok (a : A)
| Err (e : dpe_error)
| Crash (c : crash).
Arguments Ok {A} a.
Arguments Err {A} e.
Arguments Crash {A} c.

(** The [?] operator on plain results. *)
Definition rbind {A B} (m : result A) (f : A -> result B) : result B :=
  match m with
  | Ok a => f a
  | Err e => Err e
  | Crash c => Crash c
  end.

(** [Option::ok_or] *)
Definition ok_or {A} (o : option A) (e : dpe_error) : result A :=
  match o with Some a => Ok a | None => Err e end.

(** Slice indexing [v[i]] that panics when out of range. *)
Definition index_or_crash {A} (o : option A) : result A :=
  match o with Some a => Ok a | None => Crash CrashIndex end.

(** [Result::is_ok] *)
Definition is_ok {A} (r : result A) : bool :=
  match r with Ok _ => true | _ => false end.
