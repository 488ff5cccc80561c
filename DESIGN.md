# Formal model of caliptra-dpe in Rocq (Coq 8.16.1)

`properties.jsonl` lists the properties (C01...). `MANIFEST.json` maps each of
them to the theorems that settle it. The model and the proofs are in
`rocq/theories`, logical name `Verif`. `seeded/LOG.jsonl` records the wrong
programs the theorems were tested against.

How to read the log: `first_failing_proofs` is where the build of the wrong
model stopped. `theorems_failed` is derived from it: the theorems of the claims
named in `claim_broken` whose file imports a proof that stopped, or that stopped themselves (if there
are none, the theorems of all other claims of which this holds).
So a theorem listed there was no longer established; that does not say that the
statement itself had become false, since a supporting lemma may have broken
first. Two entries (m065, m071) stopped on a proof step that did not finish and
are marked as such.

## How the code is modelled

* Rust functions become total Gallina functions, one definition per Rust
  function, with a comment citing file and lines under `/repo`.
* `Result` becomes `result` with three constructors: `Ok`, `Err e` (an error the
  Rust code returns) and `Crash k` (index panic, arithmetic overflow, failed
  assertion, or a loop that ran out of its explicit fuel). Theorems about
  success or failure therefore never confuse "returned an error" with "crashed".
* `&mut` state is threaded explicitly. A command runs in a *world* made of the
  DPE `State`, the state of the crypto back end, the state of the platform and
  the bytes of the caller's response buffer. It returns the new world also when
  it fails, so partial effects are visible.
* The environment (crypto suite, platform, random numbers) is a record of
  operations over an arbitrary environment state (`crypto_ops`, `platform_ops`).
  Theorems quantify over the types, the operations and the states: a back end
  may fail at any call, return any value and behave differently at each call.
  When a property needs more (a hash that is a function, a certificate chain
  that ends, distinct random values) this is an explicit hypothesis. The
  reference back end and platform are modelled too, and shown to meet the
  hypotheses.
* Bytes are `N`, machine words are `N` with the width written where wrap-around
  or overflow matters; lengths, slot indices and fuel are `nat`.
* `MAX_HANDLES` is a parameter (between 1 and 64, as the static assertion in
  context.rs demands), the features p256, p384 and ml-dsa are booleans of the
  configuration, and the profile ranges over the three profiles (`config`,
  `config_ok` in Types.v).
* What the Rust code writes into fixed arrays is cut or padded to the array
  length (`to_buf`), so a back end that answers with a value of the wrong length
  cannot break the types of the model.

## Files

Model (no proofs):

| file | code |
|---|---|
| Base.v | byte strings, endianness, buffers |
| Errors.v | dpe/src/error.rs, response codes, back-end errors |
| Types.v | dpe/build.rs, lib.rs, support.rs, tci.rs, context.rs, state.rs: constants, flags, records |
| StateOps.v | context.rs, state.rs: bitmaps, look-ups, descendants, ChildToRootIter |
| Env.v | crypto/src/lib.rs, platform/src/lib.rs: traits; the world and its monad |
| Wire.v | commands/mod.rs and each command's structures: (de)serialisation |
| Instance.v | dpe_instance.rs: handles, TCI extension, measurement hash, profile |
| Commands.v | commands/*.rs: the nine commands; DpeInstance::new, new_auto_init, State::create |
| Response.v | response.rs, DpeInstance::execute, execute_serialized_command |
| RespBuf.v | response-buffer/src/lib.rs |
| Validation.v | validation.rs |
| X509.v, X509Cert.v | x509.rs: size predictions, DER writer, certificate, CSR, CMS, key derivation and names |
| Features.v | the functions with `disable_*` gates, for an arbitrary set of these features |
| Cfi.v | the functions with control-flow-integrity (`cfi`) assertions, under arbitrary wrong decisions |
| DefaultPlatform.v | platform/src/default.rs |
| RustCrypto.v | crypto/src/rustcrypto.rs, hkdf.rs |
| Simulator.v | simulator/src/main.rs; dpe/fuzz/src/fuzz_target_1.rs |
| CertTool.v | tools/src/cert_size/main.rs, benchmark.rs |
| Viewer.v | tools/src/lib.rs (certificate viewer) |
| Samples.v | tools/src/sample_dpe_cert.rs, tools/build.rs |
| PanicCheck.v | verification/panic-check/firmware/src/*.rs |
| GoClient.v | verification/client/abi.go, helpers.go, profile.go, errors.go; verification/sim/transport.go |
| Suite.v | verification/testing/getProfile.go, initializeContext.go, rotateContextHandle.go, negativeCases.go; the loop of verification.go |
| SuiteDerive.v | verification/testing/deriveContext.go (the tests that read no certificate, without TestMaxTCIs), TestSignSimulation of sign.go, the targets of simulator.go for one of these tests |
| SuiteMax.v | TestMaxTCIs of verification/testing/deriveContext.go and its target; Go's x509.ParseCertificate is a parameter |
| SuiteSign.v | TestAsymmetricSigning of verification/testing/sign.go and the two tests of sign_raw.go; Go's certificate parser, the verifiers of signatures and CalculateExternalMu are parameters |
| SuiteChain.v | TestGetCertificateChain, checkCertificateChain and validateCertChain of verification/testing/getCertificateChain.go, with removeTcgDiceCriticalExtensions, removeTcgDiceExtendedKeyUsages and buildVerifyOptions of certifyKey.go; Go's parsers, linter and verifiers are parameters |
| SuiteExt.v | checkCertificateExtension of verification/testing/certifyKey.go with the checks it calls, the functions of certs.go that find an extension, and the choice of the element at the end of getTcbInfoForHandle; asn1.Unmarshal and the hashes are parameters |

Specifications (vocabulary of the statements, independent of the model's
helpers): Spec.v, History.v, Contract.v, WireSpec.v, Reasons.v, Der.v,
X509Spec.v, X509Read.v, ClientSpec.v, the size formulas of ExactSize.v, and the heads of Ledger.v, Validator.v, X509Fail.v,
Trace.v, TraceRust.v and RefFaults.v.

Statements: Props_*.v. Every theorem named in the manifest is there, followed by
`Print Assumptions`, with Examples that show that its hypotheses can be met.
Toy.v and ToyX509.v are small concrete environments for those Examples and for
the witnesses of `_refuted` theorems.

Everything else is proof support.

## Approach per property

| property | modelled part | proof |
|---|---|---|
| C01 | state.rs look-up, all commands | characterisation of the look-up, then per command |
| C02, C03, C39 | generate_new_handle with an arbitrary random source | per-command characterisation and an invariant over histories; C03 needs a proviso and is refuted without it |
| C04 | whole command execution | case analysis over every failure point; the exceptions are exact |
| C05-C09, C18, C34 | whole command execution | inductive invariant over histories of arbitrary commands |
| C10, C20 | same | invariant under a proviso on InitializeContext, refutation without |
| C11, C12, C13, C17, C35-C38, C41 | same | functional specification of each command |
| C14 | same plus ghost history | invariant relating state and history |
| C15, C16 | compute_measurement_hash, sign, certify | refinement to a byte-level specification, injectivity of the encoding |
| C19, C20 | validation.rs | equivalence of the executable validator with a declarative well-formedness |
| C21 | everything | no `Crash` from well-formed states, for every byte string |
| C22, C23, C24 | command/response codecs, error.rs | round trips, case analysis |
| C25 | response-buffer | algebraic laws |
| C26 | ChildToRootIter | equality with the path of the forest |
| C27-C31, C40, C43 | x509.rs | refinement of the byte writer to trees of DER values, which an independent strict decoder reads back |
| C30, C45 | all commands, response structures | relational argument over two runs with different buffers; size arithmetic |
| C32, C33 | reference platform and back end | induction over chunk lists; invariant over back-end calls |
| C42 | all commands, x509.rs | complete list of refusals (with an arbitrary writer, and with the modelled one down to its internal errors), success of legitimate requests |
| C46 | all gated functions | equality of two builds, command by command and over request lists |
| C48, C49 | all functions with `cfi` assertions | equality with the code without them; case analysis over wrong decisions |
| C50 | simulator | equality of the answer with what the command wrote; induction over connections |
| C51 | calls of the crypto back end by all commands | automaton over call sequences; logic of triples over the command and writer monads; recording back end |
| C52 | commands with reference platform and back end, fuzz target | reasons of C42 cut down by what the modelled platform and back end can do; case analysis over the harness |
| C53, C54 | client and simulator | the client's request is the request of the command meant, its reader inverts the response; induction over calls and over chunks |
| C55 | size tool | induction over derived contexts with reference platform and back end; exact size arithmetic of X.690 |
| C56 | certificate viewer | the DER trees of C29/C43 go through its parser row by row; octet arithmetic of the response header |
| C57 | sample programs | symbolic execution of the programs through the command theorems (C11, C52) over a table described by its used slots; then C56 |
| C58 | program of the panic check | invariant with three phases over all requests |
| C59 | tests of the verification suite | each test executed symbolically through the client theorems of C53; what it leaves is an invariant (SuiteRun.v) for induction over lists of tests |
| C60 | tests of DeriveContext of the suite | a logic of tests that pass or meet an unlucky call (SuiteFollow.v) over tables described by the list of their live contexts (SuiteDeriveState.v) |
| C61 | test of the number of contexts | induction over the derivations: the live contexts are a chain of parents (SuiteMaxProofs.v), whose certificate fits (C29) |
| C62 | tests that verify signatures | CertifyKey and Sign for a default handle do not change the state (SuiteSignProofs.v); what they answer is C16 in the reference environment |
| C63 | test of the certificate chain | induction over the chain for each loop; the map of unknown extensions is empty as an invariant of its loop; the simulator through C54 |
| C64 | checks of extensions | induction over the list for the search; case analysis of each check; the nine bits of KeyUsage exhaustively; DPE's extensions through X509Spec.v |
| C44, C47 | CSRs | the signing calls covered by the written bytes; the signer read back |

Partial properties state what is missing beside the theorem and have a
`_refuted` theorem with a reachable witness where the code violates the full
claim.

## What the proofs found in the code

* C29, C31, C43: the writer sizes every TcbInfo entry of the measurement
  extension by the first one. If SVNs of a chain have DER encodings of different
  length, CertifyKey succeeds and returns a certificate that a strict reader cannot
  read (exactly: unless the lengths happen to sum to the same). Only the extensions
  (of a request: the attributes) are affected: what is signed, by which key, and the
  signer named are right for all SVNs (C29_outside, C44_possession_any, C47).
* C47: the key identifier of a CSR's signer is written as an OCTET STRING inside an
  implicitly tagged OCTET STRING, so readers get two octets too many. A unit test
  (x509.rs, run_encode_signer_info_ecdsa) skips them.
* C45: MAX_CERT_SIZE (build.rs) is too small for CSRs of full chains with large
  SVNs; CertifyKey then fails with CertSizeOverflow. With features p256 and p384
  together, P-384 instances get the P-256 sizes.
* C15: nothing separates context records from the certificate chain in the
  measurement hash, so different chains can hash the same bytes.
* C10, C20: InitializeContext can create a second default context beside others
  in its locality, a state the validator rejects.
* C02, C03: a random source that repeats a value can lead to duplicate handles,
  since fresh handles are compared with stored ones only, before all are stored.
* C04: three kinds of failures change the state before they are reported.
* C19: the validator accepts some states that no history reaches.
* C21: a platform whose certificate chain does not end keeps the measurement
  hash in its loop.
* C46: the validator does not compare the support mask with the build. A state
  carried over from a build with more features is accepted, and with
  disable_internal_info its contexts then get other keys (proved for that feature;
  disable_internal_dice has the same kind of gate).
  By reading: disable_x509 cannot compile (the match arm at x509.rs:2621 has no
  value then); xtask and CI build none of the `disable_*` features.
* C49: 15 of the 39 decisions in functions with `cfi` assertions are not covered by
  them: one wrong decision there lets the command succeed with another effect. Among
  them are the checks of DeriveContext on recursion and on exporting CDIs
  (derive_context.rs:246-273 lists conditions that 291-296 do not repeat), the check
  for unique tci_types, retaining the parent (the assertion on that branch is reached
  only for default handles), the choice of the new handle in RotateContextHandle
  (rotate_context.rs:120), and the handle refresh of dpe_instance.rs:236, which is
  asserted in the `else` branch only. UpdateContextMeasurement has no assertion.
* C50: the simulator panics, and so ends, on messages of less than four bytes, on
  bytes that are no request, and when the peer does not take the answer
  (simulator/src/main.rs: the slice `buf[4..len]` and three `unwrap`s).
* C52: ECDSA rejects a derived secret that is zero or not below the group order (for
  P-256 about one in 2^32), and nothing retries: CertifyKey and Sign for that CDI and
  label then always fail. The fuzz target panics only if the random source returns
  zeros eight times in a row.
* C53: on an ML-DSA device the client's `Sign` with the flag for raw messages sends a
  request that is too short, which ends the simulator. The client never copies the
  number of contexts (MaxTciNodes) from the profile. It has a text for no error of the
  platform or the crypto back end, since it does not separate the two codes. The
  feature IsSymmetric has no option of the simulator. Clients of the two minimum
  profiles can connect to no build.
* C54: a certificate chain whose length is a multiple of 2048 (or zero) cannot be read:
  the client expects InvalidArgument behind the end, the reference platform's error has
  another status. A device that reports a size above 2048 makes the client panic.
* C55: for ECDSA the constants that the size tool calls verified do not bound sizes for
  counts in between, since signature lengths vary and only one seed is sampled. For
  P256 with MAX_HANDLES = 2 (and, by the same formula, P384 with MAX_HANDLES = 1) the
  constants of build.rs are one or two octets too small for requests even if all SVNs
  are 0. The tool cannot show this: it stops with CertSizeOverflow. Built with
  `--features p256` (p384 is a default feature) it reports sizes of P384 keys as P256.
* C56: the viewer skips 128 octets of a response whatever the profile, so it shows
  no raw P256 response (by the same count, none of ML-DSA or of an exporting
  DeriveContext). One octet behind a CMS message makes a request unreadable. The
  tool's samples make types from text big-endian and the DPE writes them
  little-endian, so "TEST" is shown as 'TSET'.
* C57: the build script of the viewer needs MAX_HANDLES of five or more. If the random
  generator repeats a block at the wrong moment, the context B_B1 is missing from the
  certificate, without an error (the parent's new handle is not compared with the
  child's, see C03). sample_dpe_cert labels a signed CMS message "PKCS7".
* C27: an empty integer is written without contents. C28: lengths of 2^32 and
  more lose their high bytes (beyond any buffer in use).
* C58: the program of the panic check, if run, would refuse its one-byte request before
  dispatching any command, and with its dummy back end only GetProfile,
  InitializeContext and DestroyContext could ever succeed. The check covers the other
  commands only through what the compiler cannot prove unreachable.
* C59: tests of the suite leave the locality at DPESimulatorOtherLocality, so the tests
  of rotation fail if they run after those of profile or initialisation, on a correct
  device. TestRotateContextHandleSimulation needs an active context in the locality
  besides the one it makes, though its declared support lacks AutoInit; without it, it
  fails and leaves a default simulation context behind. If a rotation fails, its deferred
  DestroyContext dereferences nil. TestRotateContextHandle loses the default handle if
  another context shares the locality. TestWrongLocality, in the order of AllTestCases,
  runs from OtherLocality + 1, where nothing ever exists. TestInitializeContext leaves a
  default context. The test of the profile needs exactly 64 contexts, and fails if
  IsSymmetric is asked for.
* C60: TestDeriveContextSimulation can never pass: it sends one request that must be
  refused and, with nothing in between, the same request that must succeed. No target
  runs it: the one made for it lacks InternalDice and InternalInfo, which it needs, so it
  is skipped. TestDeriveContext destroys only the last context it made,
  TestPrivilegesEscalation none, and the test of disallowed exports the default handle,
  which is no longer valid by then: in each case an active context stays behind and the
  default handle is lost. TestChangeLocality and TestInternalInputFlags leave no context at all.
  If the generator repeats a value within one DeriveContext (see C03), the tests of
  uniqueness and of recursion report a failure or act on the wrong context.
* C61: TestMaxTCIs passes only on a device with exactly 64 contexts (with fewer it stops at
  line 359), and consumes the default context: no context is left. It also depends on
  every key derived being a valid scalar, as every CertifyKey with a curve does.
* C64: checkBasicConstraints (certifyKey.go:504) says that BasicConstraints MUST be
  included, but a certificate without it passes as a leaf, and one without MultiTcbInfo passes
  too; and `expected` is only compared one way (line 511), so that a certificate that is no CA
  passes as that of an exported CDI (`C64_missing_refuted`, `C64_ca_refuted`).
* C63: removeTcgDiceCriticalExtensions and removeTcgDiceExtendedKeyUsages (certifyKey.go:270,
  303) compare the size of the map with 0 where that of the list of unknown identifiers is
  meant. The map is never filled, so the lists are always cleared and nothing is reported.
* C63: with ML-DSA a first certificate that names another issuer is trusted without a
  signature (getCertificateChain.go:142).
* C62: TestSignRawMode and TestSignRawConsistencyWithNormalMu (sign_raw.go) are in no list of
  test cases, so nothing runs them and raw signing of ML-DSA is not tested end to end.
  TestAsymmetricSigning parses the certificate only for elliptic curves and does not look at
  the key in it: a certificate for another key would pass.

## Not modelled

* The counters of `cfi_impl_fn` and the effect of `cfi_launder` on the optimiser
  (feature `cfi`). The assertions of that feature, which is on by default, are in
  Cfi.v; the other files leave them out, which C48 proves to make no difference.
  Faults in Cfi.v are wrong outcomes of whole decisions, at chosen places, the same
  for the whole command; skipped instructions, changed data and faults inside
  look-ups, hashing, parsing and the X.509 writer are not modelled.
* Builds with `disable_*` features other than in Features.v: all other theorems
  are about the default build, and carry over by C46. With disable_x509 the writer
  of exported certificates is that of the default build.
* Memory zeroisation, constant-time behaviour of the handle comparison, stack
  usage, alignment (`zerocopy` casts are modelled by their byte semantics).
* Cryptography itself: hashing, key derivation and signing are operations of the
  environment (`primitives` of RustCrypto.v for the reference back end).
* The X.509 parsing by which DefaultPlatform finds issuer, serial number and key
  identifier in its certificate: they are parameters.
* The simulator's logging, signal handling and socket file; xtask, the symbol search of the panic check,
  the tools' command lines, the Markdown text of the viewer (its contents are modelled),
  platform/src/printer.rs, the crates' unit tests; of the verification suite the tests of
  CertifyKey (their checks of extensions are modelled), those of DeriveContext that read a certificate, and of the TPM; the client's CalculateExternalMu, its error texts,
  and messages that arrive at the simulator in more than one piece.

## Trusted base

* Coq's kernel (the build also passes `coqchk`; its VM is used by `vm_compute`).
* `Print Assumptions` answers "Closed under the global context" for every theorem
  of the manifest: no theorem rests on an axiom. `coqchk -o` lists seven axioms
  of the loaded standard library, `Coq.ssr.ssrunder.Under_rel.*`. They come with
  the `ssreflect` part of the library that `lia`/`zify` load and are the body of
  a module sealed by a module type; no theorem here uses them.
* The faithfulness of the transcription. Each definition cites the lines it
  transcribes and states its simplifications.
* No axioms, no Admitted, no functors or module types, no plugins beyond the
  standard library's.
