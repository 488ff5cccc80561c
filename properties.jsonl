{"id": "C01", "title": "Only the owning locality with the live handle can address a context", "statement": "A command that names a handle is accepted for a context only if that context is active, its handle equals the presented 16 bytes and it belongs to the caller's locality; when the caller's locality owns no active context the answer is InvalidLocality, when it owns some but none with that handle the answer is InvalidHandle, and in both cases the DPE state is left exactly as it was. (Argument and support checks that precede the handle lookup may be reported instead; UpdateContextMeasurement reports InvalidParentLocality for both.)", "quantifier": "every DPE state, every caller locality, every 16-byte handle, every handle-taking command (DeriveContext, CertifyKey, Sign, RotateContextHandle, DestroyContext, UpdateContextMeasurement)", "why_tests_cant": "A unit test checks one handle in one locality; a lookup that matches on handle alone, or on retired contexts, passes any test whose handles happen to be globally distinct.", "anchors": ["dpe/src/state.rs: State::get_active_context_pos, get_active_context_pos_internal", "dpe/src/commands/*.rs: execute_serialized"]}
{"id": "C02", "title": "Non-default handles are one-time-use", "statement": "After any successful command that consumed a non-default handle h, no active context carries h any more, so presenting h again (from any locality) fails with InvalidHandle or InvalidLocality; a default handle is never consumed by CertifyKey/Sign/recursive derivation. For UpdateContextMeasurement, which draws the child's new handle after having replaced the parent's, this needs a random source that does not hand out the consumed value again.", "quantifier": "every reachable state, every command taking a handle, every random-number source", "why_tests_cant": "The replacement handle comes from a random source; tests use a fixed RNG and can never show that no RNG output lets the old handle survive.", "anchors": ["dpe/src/dpe_instance.rs: roll_onetime_use_handle, generate_new_handle", "dpe/src/commands/*.rs"]}
{"id": "C03", "title": "Live non-default handles are pairwise distinct", "statement": "In every reachable state two different active contexts never share a non-default handle, provided that the random source does not return the same 16 bytes for the parent and the child of a single retaining DeriveContext; without that proviso the property is false (the parent's fresh handle is not yet stored when the child's is drawn).", "quantifier": "every finite history of commands from an empty state, every behaviour of the random source", "why_tests_cant": "Requires a collision of two 128-bit random values inside one command; no test will sample it, yet a stuck RNG makes it certain.", "anchors": ["dpe/src/dpe_instance.rs: generate_new_handle", "dpe/src/commands/derive_context.rs: execute_serialized lines 352-457"]}
{"id": "C04", "title": "A failing command has no effect on the context state", "statement": "When a command returns an error status the stored DPE state is bit-for-bit what it was before the command, except in exactly three situations: the response could not be written into a too small caller-supplied buffer (InvalidResponseBuf; the state is then that of the completed command), UpdateContextMeasurement fails while rolling the child's handle after having already replaced the parent's, or CertifyKey's certificate writer returned a public key of the wrong kind (InvalidArgument) after the handle was rolled.", "quantifier": "every state, every command, every failure point of the crypto/platform/random back end, every response buffer size", "why_tests_cant": "The number of failure points times states is unbounded; unit tests inject none of the crypto or RNG failures.", "anchors": ["dpe/src/commands/*.rs: execute_serialized", "dpe/src/dpe_instance.rs: add_tci_measurement, generate_new_handle"]}
{"id": "C05", "title": "The contexts always form a forest with consistent links", "statement": "After every history of commands: each in-use context's parent is in use and lists it as a child, each listed child is in use and points back, following parents always ends at a root within MAX_HANDLES steps (no cycles), retired contexts have at least one child, and free slots carry no parent, children, measurement, locality or permission flags.", "quantifier": "every finite sequence of commands (well- or ill-formed), localities and back-end behaviours", "why_tests_cant": "A cycle or dangling link only appears after specific derive/destroy interleavings; the space of histories is unbounded.", "anchors": ["dpe/src/commands/derive_context.rs", "dpe/src/commands/destroy_context.rs", "dpe/src/context.rs: Context::activate, destroy, add_child"]}
{"id": "C06", "title": "The base CDI is initialised at most once", "statement": "Over any history at most one InitializeContext(default) succeeds; afterwards every further attempt returns ArgumentNotSupported even when the whole default tree has been destroyed; all non-simulation contexts of any reachable state belong to one single tree.", "quantifier": "every finite history of commands", "why_tests_cant": "Needs reasoning about all histories including destruction of the root; tests check only an immediate second call.", "anchors": ["dpe/src/commands/initialize_context.rs", "dpe/src/state.rs: has_initialized"]}
{"id": "C07", "title": "Simulation contexts never reach real keys", "statement": "A context's type is inherited from its parent for ever (all contexts of one tree share the type), Sign and EXPORT_CDI on a simulation context are rejected with InvalidArgument, and simulation contexts only exist when the SIMULATION feature is supported.", "quantifier": "every history, every descendant at any depth of a simulation root", "why_tests_cant": "Depth of derivation and interleaving with destroy/slot reuse is unbounded.", "anchors": ["dpe/src/commands/sign.rs", "dpe/src/commands/derive_context.rs", "dpe/src/commands/initialize_context.rs"]}
{"id": "C08", "title": "Permissions only shrink along derivation", "statement": "In every reachable state a context that may use X.509, export its CDI or be updated recursively has a parent that holds the same permission (hence all its ancestors do), and no command ever grants one of these permissions to an existing context.", "quantifier": "every history and every ancestor/descendant pair", "why_tests_cant": "Privilege escalation would need a particular chain of flags; the flag space times tree shapes cannot be enumerated.", "anchors": ["dpe/src/commands/derive_context.rs lines 260-277, 479-485", "dpe/src/context.rs: allow_x509, allow_export_cdi, allow_recursive"]}
{"id": "C09", "title": "INPUT_TYPE is unique among siblings", "statement": "In every reachable state no two children of one context have the same tci_type, and a DeriveContext that would create a duplicate (also against a retired sibling) fails with InvalidArgument.", "quantifier": "every history, every parent, every tci_type", "why_tests_cant": "Depends on which siblings survived earlier destroys; unbounded histories.", "anchors": ["dpe/src/commands/derive_context.rs: tci_type_is_unique_among_children"]}
{"id": "C10", "title": "A default handle excludes every other active handle of its locality", "statement": "DeriveContext and RotateContextHandle never create a second default context or mix default and non-default contexts in a locality that was consistent before; InitializeContext performs no such check, so over all histories the property fails, and it holds for every history in which InitializeContext is only issued in localities without active contexts.", "quantifier": "every history, every locality", "why_tests_cant": "The violating history mixes InitializeContext(simulation), Rotate and InitializeContext(default); tests never combine them.", "anchors": ["dpe/src/commands/derive_context.rs: safe_to_make_child", "dpe/src/commands/rotate_context.rs", "dpe/src/commands/initialize_context.rs", "dpe/src/validation.rs: check_context_handles_per_locality"]}
{"id": "C11", "title": "DestroyContext removes exactly the subtree and its orphaned retired ancestors", "statement": "A successful DestroyContext frees the addressed context, all of its descendants and the maximal run of consecutive retired ancestors that have no other child, and nothing else: every other context keeps all its fields, losing only the child-links to freed contexts.", "quantifier": "every well-formed forest, every addressed context", "why_tests_cant": "Tree shapes are combinatorially many; over- or under-deletion shows only on specific shapes.", "anchors": ["dpe/src/commands/destroy_context.rs: destroy_context", "dpe/src/state.rs: get_descendants"]}
{"id": "C12", "title": "DeriveContext creates exactly one child with the requested attributes", "statement": "A successful non-recursive, non-exporting DeriveContext fills the first free slot with an active context whose type is the parent's, locality is the target locality, tci_type/svn/flags are the requested ones (export and recursion permission ANDed with the parent's), measurement is the extension of zero by the input, links it to the parent, retires the parent (handle invalidated) or keeps it (handle kept if default, else refreshed), and changes no other context and no other field.", "quantifier": "every state, every flag combination, every locality, every back end", "why_tests_cant": "2^11 flag combinations times states; frame conditions are not checked by tests.", "anchors": ["dpe/src/commands/derive_context.rs", "dpe/src/context.rs: Context::activate"]}
{"id": "C13", "title": "Measurement updates extend exactly one context", "statement": "Recursive DeriveContext and UpdateContextMeasurement set the target's current TCI to the input and its cumulative TCI to HASH(old cumulative || input), keep tci_type, svn, locality, links and permissions, and touch no other context except (for Update) the parent's handle; UpdateContextMeasurement only reaches an active direct child of the presented parent.", "quantifier": "every state, input and hash function", "why_tests_cant": "Frame condition over all other contexts and all inputs.", "anchors": ["dpe/src/dpe_instance.rs: add_tci_measurement", "dpe/src/commands/derive_context.rs lines 300-338", "dpe/src/commands/update_context_measurement.rs"]}
{"id": "C14", "title": "Cumulative TCI is the hash chain of all measurements since creation", "statement": "For every history, each in-use context's cumulative TCI equals the left fold x -> HASH(x || m), starting from zeroes, over exactly the measurements accepted for that context since it was created, and its current TCI is the last of them.", "quantifier": "every history, every context, every deterministic hash", "why_tests_cant": "Quantifies over unbounded histories.", "anchors": ["dpe/src/dpe_instance.rs: add_tci_measurement", "dpe/src/commands/derive_context.rs", "dpe/src/commands/update_context_measurement.rs"]}
{"id": "C15", "title": "The CDI digest binds the whole measurement chain", "statement": "The digest from which keys are derived is the hash of the concatenation, from the leaf to the root, of every node's full TCI record and X.509 permission byte, followed by the profile information when any node asked for it and by the platform certificate chain when any node asked for it; two chains that differ in any field feed different bytes to the hash.", "quantifier": "every well-formed state, every context, every pair of chains", "why_tests_cant": "Injectivity is a statement about pairs of arbitrary chains.", "anchors": ["dpe/src/dpe_instance.rs: compute_measurement_hash, serialize_internal_input_info", "dpe/src/context.rs: ChildToRootIter"]}
{"id": "C16", "title": "Sign and CertifyKey use the same key for the same context and label", "statement": "With a deterministic back end, the public key certified by CertifyKey for (context, label) is the public key of the key pair that Sign uses for (context, label), also after the handle was rolled or rotated; it depends only on the measurement chain, the label and the profile.", "quantifier": "every reachable state, context, label, interleaving of handle-rolling commands", "why_tests_cant": "A pair-of-executions property.", "anchors": ["dpe/src/commands/sign.rs: sign", "dpe/src/x509.rs: create_dpe_cert_or_csr", "crypto/src/lib.rs: CryptoSuite"]}
{"id": "C17", "title": "RotateContextHandle changes one handle and nothing else", "statement": "A successful RotateContextHandle replaces only the handle of the addressed context, by the default handle if requested (then there was no default and no other active context in the locality) or by a fresh non-default handle otherwise; it is rejected when unsupported.", "quantifier": "every state, handle, flag", "why_tests_cant": "Frame property.", "anchors": ["dpe/src/commands/rotate_context.rs"]}
{"id": "C18", "title": "Capacity is exact and slots are recycled", "statement": "InitializeContext and DeriveContext report MaxTcis exactly when every slot is in use (once the earlier argument checks passed), the new context always takes the lowest free slot, the number of in-use contexts never exceeds MAX_HANDLES and changes by +1 on creation and by the number of freed contexts on destruction. (For DeriveContext a failing handle draw for a retained parent is reported before MaxTcis.)", "quantifier": "every state, every MAX_HANDLES between 1 and 64", "why_tests_cant": "Boundary behaviour for all occupancy patterns.", "anchors": ["dpe/src/state.rs: get_next_inactive_context_pos", "dpe/src/commands/initialize_context.rs", "dpe/src/commands/derive_context.rs"]}
{"id": "C19", "title": "The state validator accepts only well-formed states", "statement": "If validate_dpe returns Ok for an arbitrary (possibly corrupted) state then marker and version are right, the contexts form a forest with mutually consistent links and no cycles, trees have one type, there is at most one normal tree, free slots are clean, retired contexts have children, unsupported features are unused and no locality mixes default with other active handles.", "quantifier": "every bit pattern of the persisted state", "why_tests_cant": "Quantifies over all corruptions; tests corrupt one field at a time.", "anchors": ["dpe/src/validation.rs: DpeValidator::validate_dpe"]}
{"id": "C20", "title": "The state validator accepts every state the command set can produce", "statement": "Every state reachable by commands passes validate_dpe, provided InitializeContext is only issued in localities without active contexts; without the proviso a reachable state is rejected (MixedContextLocality or MultipleDefaultContexts).", "quantifier": "every history", "why_tests_cant": "Completeness over all histories.", "anchors": ["dpe/src/validation.rs", "dpe/src/commands/*.rs"]}
{"id": "C21", "title": "No command can crash or hang the DPE", "statement": "From every reachable or validated state, executing any byte string as a command terminates without out-of-bounds indexing, arithmetic overflow or unbounded loops, provided the platform's certificate chain reader eventually reports the end of the chain.", "quantifier": "every byte string, every well-formed state, every back end", "why_tests_cant": "Absence of panics over all inputs.", "anchors": ["dpe/src/dpe_instance.rs", "dpe/src/context.rs", "dpe/src/state.rs", "dpe/src/commands/*.rs"]}
{"id": "C22", "title": "Command parsing is total, canonical and ignores only trailing bytes", "statement": "deserialize(serialize(c) ++ rest) = c for every command, profile and trailing bytes; every byte string yields either a command whose serialisation is a prefix of it or one of InvalidCommand (bad/short header, wrong profile, unknown id) and InvalidArgument (short body); GetProfile is accepted for any profile word.", "quantifier": "every byte string, every profile", "why_tests_cant": "Round-trip over all values and totality over all byte strings.", "anchors": ["dpe/src/commands/mod.rs: Command::deserialize, CommandHdr", "dpe/src/commands/sign.rs: SignCommand::deserialize", "dpe/src/commands/certify_key.rs: CertifyKeyCommand::deserialize"]}
{"id": "C23", "title": "Responses round-trip and report their exact size", "statement": "For every response value, the bytes written to the output buffer parse back to the same response, the returned size is the number of bytes written, and the bytes beyond are untouched.", "quantifier": "every response value, every buffer", "why_tests_cant": "All values, all buffer contents.", "anchors": ["dpe/src/response.rs", "dpe/src/commands/mod.rs: CommandExecution::execute"]}
{"id": "C24", "title": "Status codes identify the error", "statement": "The numeric status of a response is zero exactly for success, and two different errors have the same status only if they differ in a detail the code does not carry (which internal error, or the vendor code inside a back-end error).", "quantifier": "every error value", "why_tests_cant": "All pairs of error values.", "anchors": ["dpe/src/error.rs: DpeErrorCode::get_error_code, discriminant"]}
{"id": "C25", "title": "Response buffers confine writes to their window", "statement": "A write through an offset view either changes exactly the bytes [base+offset, base+offset+len) of the underlying buffer, or reports an error and changes nothing; reads return exactly what was last written; views never reach bytes before their base.", "quantifier": "every buffer, offset (including values close to usize::MAX), data and nesting of views", "why_tests_cant": "Overflow corner cases.", "anchors": ["response-buffer/src/lib.rs"]}
{"id": "C26", "title": "Walking a chain up and down visits the same contexts", "statement": "On every well-formed state, iterating from a context to its root yields each ancestor exactly once, ends at the root, never errors, and the reverse iteration yields the same contexts in the opposite order.", "quantifier": "every forest, every start context", "why_tests_cant": "The reverse walk searches children bitmaps; correctness depends on global link consistency.", "anchors": ["dpe/src/context.rs: ChildToRootIter"]}
{"id": "C27", "title": "DER INTEGERs are minimal and value preserving", "statement": "For every byte string the emitted INTEGER content is the shortest two's-complement encoding of the unsigned big-endian value (never negative, no redundant leading octet), and the predicted size equals the emitted size.", "quantifier": "every byte string (keys, signatures, serial numbers, SVNs)", "why_tests_cant": "All byte strings including leading zeros and high bits.", "anchors": ["dpe/src/x509.rs: encode_integer_bytes, get_integer_bytes_size, get_integer_size"]}
{"id": "C28", "title": "DER length fields are correct and minimal", "statement": "For every size the emitted length octets decode to exactly that size in minimal DER form and occupy the predicted width; sizes that cannot be represented are reported as an error.", "quantifier": "every usize", "why_tests_cant": "All sizes incl. the 127/128, 255/256, 65535/65536 edges.", "anchors": ["dpe/src/x509.rs: encode_size_field, get_size_width, get_structure_size"]}
{"id": "C29", "title": "Generated certificates and CSRs are well-formed DER", "statement": "Every declared length in an emitted certificate, CSR or CMS message equals the length of its contents, so that the output is one complete DER value. (True exactly when the encoded widths of the SVNs on the chain sum to as much as if all were as wide as the root's; in particular when they are all of one width.)", "quantifier": "every measurement chain, every name/key/signature/extension content", "why_tests_cant": "Length consistency over all contents; the violation needs an SVN >= 128 below an SVN < 128.", "anchors": ["dpe/src/x509.rs: CertWriter"]}
{"id": "C30", "title": "Certificates are never silently truncated", "statement": "If the response buffer is too small for the certificate the command fails; on success the reported size fits in the buffer and all reported bytes were written.", "quantifier": "every buffer size, every content", "why_tests_cant": "All sizes around the limit.", "anchors": ["dpe/src/x509.rs: encode_bytes, encode_byte, check_not_truncated, create_dpe_cert_or_csr"]}
{"id": "C31", "title": "The certificate reports every measurement of the chain", "statement": "The MultiTcbInfo extension of an emitted certificate/CSR consists of one TcbInfo per context on the chain from the root to the addressed context in order, each carrying that context's svn, current measurement, locality, type and (when recursion is supported) cumulative measurement.", "quantifier": "every well-formed state and addressed context", "why_tests_cant": "Depth and contents unbounded.", "anchors": ["dpe/src/x509.rs: encode_multi_tcb_info, encode_tcb_info, TciNodes"]}
{"id": "C32", "title": "Chunked reading reassembles the certificate chain", "statement": "Reading the platform chain by successive GetCertificateChain requests of any positive chunk sizes up to 2048, each starting where the previous one ended, returns exactly the chain, and a request at or past the end fails; requests above 2048 bytes are rejected.", "quantifier": "every chain, every sequence of chunk sizes", "why_tests_cant": "All chunkings.", "anchors": ["platform/src/default.rs: get_certificate_chain", "dpe/src/commands/get_certificate_chain.rs"]}
{"id": "C33", "title": "Exporting a CDI creates no context and consumes the parent as documented", "statement": "A successful EXPORT_CDI returns the invalid handle for the child, never adds a context, and either keeps the parent (retained, fresh handle unless default), retires it (other children exist), or frees it together with its orphaned retired ancestors; the crypto back end hands out a bounded number of exported-CDI handles, each resolving only to the CDI it was issued for.", "quantifier": "every state, flag combination and back-end history", "why_tests_cant": "Several state-dependent branches.", "anchors": ["dpe/src/commands/derive_context.rs lines 370-431", "crypto/src/rustcrypto.rs: derive_exported_cdi, derive_key_pair_exported"]}
{"id": "C34", "title": "Unsupported features are unreachable", "statement": "A command asking for a feature missing from the support mask fails without effect, and no reachable state contains a context using an unsupported feature.", "quantifier": "every support mask, every history, every command", "why_tests_cant": "2^10 masks times histories.", "anchors": ["dpe/src/support.rs", "dpe/src/commands/*.rs"]}
{"id": "C35", "title": "Queries do not modify the state", "statement": "GetProfile and GetCertificateChain leave the state unchanged; CertifyKey and Sign change at most the handle of the addressed context.", "quantifier": "every state and command", "why_tests_cant": "Frame property over all states.", "anchors": ["dpe/src/commands/get_profile.rs", "dpe/src/commands/get_certificate_chain.rs", "dpe/src/commands/certify_key.rs", "dpe/src/commands/sign.rs"]}
{"id": "C36", "title": "Auto-initialisation yields exactly the default context", "statement": "Creating an instance on a fresh state with AUTO_INIT leaves exactly one context: active, default handle, normal type, in the platform's auto-init locality, with the optional measurement extended from zero; without AUTO_INIT nothing is created.", "quantifier": "every support mask, locality, measurement, back end", "why_tests_cant": "All supports and localities.", "anchors": ["dpe/src/dpe_instance.rs: DpeInstance::new, new_auto_init"]}
{"id": "C37", "title": "A context's measurements change only with its own or its parent's authorisation", "statement": "In every step of every history, the TCI record, links upward, type and permissions of a context that stays in use change only if the command presented that context's live handle from its locality (recursive derive) or its direct parent's live handle (UpdateContextMeasurement); retired contexts change their TCI never.", "quantifier": "every history, every pair of localities", "why_tests_cant": "Non-interference over all histories.", "anchors": ["dpe/src/commands/*.rs"]}
{"id": "C38", "title": "Slot reuse leaks nothing", "statement": "A context created in a previously used slot is identical to the one that would have been created in a never-used slot.", "quantifier": "every stale slot content, every creating command", "why_tests_cant": "All stale contents.", "anchors": ["dpe/src/context.rs: Context::activate, destroy, new"]}
{"id": "C39", "title": "Handle generation is bounded and fresh", "statement": "Drawing a new handle calls the random source at most 8 times and returns a value that is neither the default handle nor equal to the handle stored in any slot, or fails with an error; it fails with the exhaustion error only if all 8 draws collided.", "quantifier": "every state, every random source", "why_tests_cant": "All RNG behaviours.", "anchors": ["dpe/src/dpe_instance.rs: generate_new_handle"]}
{"id": "C40", "title": "Subject serial numbers and key identifiers are functions of the public key", "statement": "The subject serial number is the upper-case hexadecimal form of the key digest truncated to 64 characters, so two keys share it only if the digests agree on that prefix; hex encoding is injective and never overflows its buffer.", "quantifier": "every digest and destination buffer", "why_tests_cant": "All byte values.", "anchors": ["crypto/src/lib.rs: Digest::write_hex_str, get_pubkey_serial", "dpe/src/x509.rs: get_subject_name"]}
{"id": "C41", "title": "Responses report exactly what was stored", "statement": "The response of every successful command starts with the success header (magic DPER, status 0, profile), the context handles it carries are those now stored in the addressed, created or updated contexts (the invalid handle for a retired or removed parent), the returned size is the size of the response, and a command that does not issue a certificate writes nothing else, in particular nothing at all when it fails.", "quantifier": "every well-formed state, every command, every back end, every response buffer content and size", "why_tests_cant": "Ties the bytes written to the stored state for all states, commands and buffer contents.", "anchors": ["dpe/src/response.rs", "dpe/src/commands/*.rs: execute_serialized"]}
{"id": "C42", "title": "Every refusal has a reason and legitimate requests succeed", "statement": "Whenever a command answers an error, one of the circumstances that justify this error for this command holds (a complete list per command: handle not owned, unsupported or contradictory options, no free slot, a rule about default contexts, a too small response buffer, or a call to the back end that really failed). This includes the writer of certificates and requests: of all its internal errors only CertSizeOverflow can be answered, and only if less room is left than the longest output for the chain of contexts takes. Conversely a legitimate request to a dependable environment succeeds, unless no fresh handle can be drawn; certificates and requests then fit the response type (requests: if the chain leaves a slot free).", "quantifier": "every reachable state, command, locality, buffer, back end", "why_tests_cant": "Completeness of the list of refusals ranges over all states and all back-end behaviours.", "anchors": ["dpe/src/commands/*.rs", "dpe/src/dpe_instance.rs", "dpe/src/response.rs: DpeErrorCode", "dpe/src/x509.rs: create_dpe_cert, CertWriter, TciNodes", "dpe/src/error.rs: InternalErrorCode"]}
{"id": "C43", "title": "Issued certificates and requests say what the platform holds", "statement": "Every certificate issued by CertifyKey (and by an exporting DeriveContext) and every certificate inside a signed request, read back by an independent DER reader, names the subject by the hex digest of the certified public key, carries exactly the public key reported in the response, the issuer, validity and serial fields the platform supplied, and lists as trusted component blocks exactly the measurements of the addressed context and its ancestors.", "quantifier": "every well-formed state, command, locality, buffer and back end in the stated value ranges", "why_tests_cant": "Relates the bytes of the certificate to the whole context tree for all trees, keys and platform answers.", "anchors": ["dpe/src/x509.rs: create_dpe_cert_or_csr, CertWriter::encode_certificate, encode_certification_request_info", "dpe/src/commands/certify_key.rs", "dpe/src/commands/derive_context.rs"]}
{"id": "C44", "title": "A signed request proves possession of the certified key", "statement": "The signature in a certification request verifies under the very key the request certifies, over exactly the certificationRequestInfo bytes that appear in the request, and the enclosing CMS message is signed with the alias key over exactly the request it contains.", "quantifier": "every successful CertifyKey with format CSR, every faithful back end", "why_tests_cant": "Bytes covered by signatures are related for all states, measurements and platform answers.", "anchors": ["dpe/src/x509.rs: create_dpe_cert_or_csr, create_csr, encode_csr, encode_cms"]}
{"id": "C45", "title": "Response structures have room for every response", "statement": "Every command that succeeds when given a large enough buffer also succeeds through DpeInstance::execute, with the same answer and the same effect: MAX_CERT_SIZE is an upper bound for every certificate and signed request the configuration can issue.", "quantifier": "every configuration, every reachable state and chain, every SVN and measurement, every platform whose issuer and alternative name have at most 97 bytes together", "why_tests_cant": "The bound is a formula in MAX_HANDLES chosen at build time; the tests issue short chains with small SVNs, and the formula fails only for full chains with large SVNs.", "anchors": ["dpe/build.rs: MAX_CERT_SIZE", "dpe/src/response.rs: CertifyKeyResp, DeriveContextExportedCdiResp, GetCertificateChainResp", "dpe/src/dpe_instance.rs: execute", "dpe/src/x509.rs: CertWriter, create_dpe_cert_or_csr"]}
{"id": "C46", "title": "Leaving a feature out of the build equals not supporting it", "statement": "For every set of disable_* cargo features, a new instance of that build supports exactly the requested features that are built in, and from then on it goes through the same states and gives the same answers to every sequence of requests as the default build whose instance does not support those features. The only difference: with disable_rotate_context a RotateContextHandle request is an unknown command (InvalidCommand), where the default build refuses it as unsupported or malformed.", "quantifier": "all feature sets, configurations, support masks, crypto back ends and platforms, and all finite sequences of requests (arbitrary bytes) from arbitrary localities", "why_tests_cant": "There are 1024 combinations of the ten features, each with its own compiled code; the test suite builds the default one, and equality of whole runs cannot be sampled.", "anchors": ["dpe/src/support.rs: Support::preprocess_support", "dpe/src/dpe_instance.rs: compute_measurement_hash", "dpe/src/commands/derive_context.rs: execute_serialized", "dpe/src/commands/certify_key.rs: run_cert_format", "dpe/src/commands/mod.rs: Command::deserialize", "dpe/Cargo.toml: features"]}
{"id": "C47", "title": "A certificate request names the signer that the platform names", "statement": "The CMS message around a CSR has exactly one SignerInfo, with the profile's algorithms and the version numbers that belong to its form of signer identifier, and a reader that follows RFC 5652 finds in it the signer identifier that the platform returned: its issuer name and serial number, or its key identifier. (False for key identifiers.)", "quantifier": "all configurations, back ends, platforms, states and CertifyKey requests for a CSR that succeed", "why_tests_cant": "Unit tests read back one issuer and serial number and one key identifier, and for the latter skip the two octets in front of it (x509.rs, run_encode_signer_info_ecdsa); the claim is about every identifier and every request.", "anchors": ["dpe/src/x509.rs: encode_signer_identifier, encode_issuer_and_serial_number, encode_subject_key_identifier, encode_signer_info, encode_signed_data", "platform/src/lib.rs: SignerIdentifier, get_signer_identifier"]}
{"id": "C48", "title": "No control-flow-integrity assertion fails without a fault", "statement": "The default build, with its cfi assertions, does exactly what the code without them does: no cfi_assert fails, for any command in any state (reachable or not), any creation of an instance, any sequence of requests. So the default build does not panic on any request in any reachable state, if the platform's certificate chain ends.", "quantifier": "all configurations, states, commands, byte strings, sequences of requests, crypto back ends and platforms", "why_tests_cant": "A failing assertion panics the firmware; tests execute a handful of branches, while the claim is that each of the 40 assertions follows from the branch it stands in, for every state, including states tests never build.", "anchors": ["dpe/Cargo.toml: features default", "dpe/src/dpe_instance.rs: new, new_auto_init, roll_onetime_use_handle, add_tci_measurement", "dpe/src/commands/derive_context.rs: execute_serialized", "dpe/src/commands/destroy_context.rs: destroy_context", "dpe/src/commands/certify_key.rs: execute_serialized, run_cert_format", "dpe/src/commands/rotate_context.rs, sign.rs, initialize_context.rs: execute_serialized", "dpe/src/x509.rs: create_dpe_cert_or_csr"]}
{"id": "C49", "title": "A wrong decision does not make a command succeed with another effect", "statement": "If decisions in the code with cfi assertions go the wrong way, the command fails or the machine stops with the state unchanged, or the command does exactly what it does without wrong decisions. (True for any number of wrong decisions at the 24 places that are asserted on both sides, and over whole lives; false for each of the other 15, where a single one suffices.) Whatever the wrong decisions, a command that succeeds met the conditions that are asserted.", "quantifier": "all sets of decisions that go wrong, configurations, states, commands, crypto back ends and platforms", "why_tests_cant": "Tests run on machines without faults, so they never reach an assertion that fails; the sets of wrong decisions are exponentially many.", "anchors": ["dpe/src/dpe_instance.rs: new, new_auto_init, roll_onetime_use_handle, add_tci_measurement", "dpe/src/commands/derive_context.rs: execute_serialized", "dpe/src/commands/destroy_context.rs: destroy_context", "dpe/src/commands/certify_key.rs: execute_serialized, run_cert_format", "dpe/src/commands/rotate_context.rs, sign.rs, initialize_context.rs, update_context_measurement.rs: execute_serialized", "dpe/src/x509.rs: create_dpe_cert_or_csr"]}
{"id": "C50", "title": "The simulator answers what clients send, until a message that ends it", "statement": "Whatever the command line, the simulator starts with exactly the features asked for. A connection is answered exactly if it brings at least four bytes of which the rest is a request, and its peer waits for the answer; the answer is what the command wrote, or an error header with the status of the error. The first connection that cannot be answered ends the simulator, so a client can end it in any state.", "quantifier": "all command lines, profiles, seeds, primitives of the back end, reachable states, and all finite sequences of connections with arbitrary bytes", "why_tests_cant": "Sequences of byte strings from clients are unbounded; the Go tests only send complete requests and wait for the answers.", "anchors": ["simulator/src/main.rs: Args, main, handle_request", "dpe/src/dpe_instance.rs: execute_serialized_command", "dpe/src/response.rs: as_bytes_partial"]}
{"id": "C51", "title": "Commands call the crypto back end in order, hide no error of it, and sign once", "statement": "Each command makes only the calls of the crypto back end meant for it, with the labels of the profile: hashing from start to finish without other calls, a CDI made from the first digest of the command, a key pair directly behind its CDI, one use of the key pair, at most one signature with a derived key and then at most one with the alias key, handles drawn only while nothing is open. A call that fails is the last one and the command reports exactly its error; a command that succeeds made only calls that succeeded and left nothing open. GetProfile, DestroyContext and GetCertificateChain make no call. With the reference back end, hashing, random numbers, CDIs and handles of exported CDIs never fail inside a command.", "quantifier": "all commands, localities, states, configurations, crypto back ends and platforms; for the last part all primitives that do what is expected of them", "why_tests_cant": "The order of calls and the handling of failing calls depend on the back end; tests have one back end that never fails, and do not look at the calls made.", "anchors": ["crypto/src/lib.rs: Crypto, CdiManager, Signer, Hasher, CryptoSuite", "crypto/src/rustcrypto.rs: RustCryptoImpl", "dpe/src/commands: all execute functions", "dpe/src/x509.rs: create_dpe_cert_or_csr, CertWriter", "dpe/src/dpe_instance.rs: generate_new_handle, compute_measurement_hash, add_tci_measurement"]}
{"id": "C52", "title": "The reference environment fails only for five named reasons, and the fuzz harness cannot panic", "statement": "With the reference platform and the reference crypto back end, in a response buffer of the size of the response type, the only errors that are not the client's are: a derived secret that ECDSA does not accept, a second export of a CDI, a certificate chain read at or behind its end, eight unusable handles drawn in a row, and a signing request for contexts that take all slots. No command aborts. A request that the state, locality and flags permit otherwise succeeds. A failed command leaves the state unchanged, but for UpdateContextMeasurement, which may have recorded the measurement when eight handles in a row are unusable. The code of the fuzz target (create an instance, run the input as a request, check that contexts changed only on success and that no internal error came back) never panics for any input unless the random source returns the zero handle eight times.", "quantifier": "all commands, localities, reachable states, configurations, primitives that do what is expected of them, certificate chains, names and key identifiers of admissible length; for the harness all byte strings", "why_tests_cant": "The fuzz target samples inputs; the claim is about every input, every state reached before, and every outcome of the random source.", "anchors": ["dpe/fuzz/src/fuzz_target_1.rs: harness", "crypto/src/rustcrypto.rs: RustCryptoImpl", "platform/src/default.rs: DefaultPlatform", "dpe/src/commands: all execute functions", "dpe/src/dpe_instance.rs: generate_new_handle", "dpe/build.rs: MAX_CERT_SIZE"]}
{"id": "C53", "title": "The verification client and the device understand each other", "statement": "Each build of the simulator but those with P384 and ML-DSA together suits one kind of client. This client connects (others are refused), learns version, vendor and exactly the features the simulator was started for, and chooses the command codes of the version. A call with arguments of the right types makes the device execute exactly the command meant, with exactly these arguments, in the caller's locality; the caller gets exactly what the response says or the status of the error, over any sequence of calls. Arguments of wrong lengths are refused without sending anything. No answer of any device makes connecting or a call panic. Exceptions: Sign on ML-DSA with the flag for raw messages, which ends the simulator, and the number of contexts, which a new client does not copy.", "quantifier": "all builds, command lines, primitives, chains, issuers, reachable states, localities and finite sequences of calls with arbitrary arguments; for the last part all devices and transports", "why_tests_cant": "The Go tests make a few dozen calls with fixed arguments; the claim is that two implementations of the wire format in different languages agree on all arguments, responses and states.", "anchors": ["verification/client/abi.go: DPEABI, newDPEABI, getProfile, DeriveContextABI, CertifyKeyABI, SignABI, SignRaw, ToFlags", "verification/client/helpers.go: execCommand, checkRespHdr", "verification/client/profile.go: profile types", "verification/client/errors.go: Status", "verification/sim/transport.go: PowerOn, SendCmd", "simulator/src/main.rs: handle_request", "dpe/src/commands/mod.rs: Command::deserialize", "dpe/src/response.rs: as_bytes_partial"]}
{"id": "C54", "title": "The verification client reads the whole certificate chain", "statement": "The client gets the whole certificate chain of the device, byte for byte, and leaves the device unchanged. It does whenever the length of the chain is no multiple of 2048. Otherwise it does only if the device answers a request at the end with InvalidArgument, which the reference platform does not.", "quantifier": "all chains, all devices that hand them out in pieces; all reachable states of the simulator", "why_tests_cant": "The tests read the one generated chain of each profile; the outcome depends on the length of the chain.", "anchors": ["verification/client/abi.go: GetCertificateChainABI", "platform/src/default.rs: get_certificate_chain", "dpe/src/commands/get_certificate_chain.rs: execute"]}
{"id": "C55", "title": "The certificate size tool measures exactly and its constants bound every size", "statement": "For every number of contexts from 1 to MAX_HANDLES the tool measures the certificate and the request of a device that really has that many contexts in the chain, to the octet. It fails only for a secret that ECDSA does not accept or a request for MAX_HANDLES contexts that exceeds MAX_CERT_SIZE. Growth per context is largest from the first to the second. The constants that it suggests and calls verified bound every size it can measure, sampled or not.", "quantifier": "all builds, algorithms, counts, seeds, issuer names, serial numbers and primitives of the reference back end", "why_tests_cant": "The tool is run by hand with one chain and one seed; signature lengths vary from run to run, and only nine counts are sampled.", "anchors": ["tools/src/cert_size/main.rs: execute_and_measure, measure_cert_csr", "tools/src/cert_size/benchmark.rs: run, LinearApprox::from_sizes, approx, verify", "dpe/build.rs: MAX_CERT_SIZE"]}
{"id": "C56", "title": "The certificate viewer shows what the DPE measured", "statement": "For every certificate and every request that CertifyKey (or DeriveContext with export) returns, the viewer of the tools crate shows a report: the profile, subject, issuer, serial number, validity and signature algorithm that were written, every extension under its name, and one row per context of the chain, from the root to the context certified, with its SVN, current measurement, type, locality and (with recursion) cumulative measurement. The graph it draws is the chain. A whole CertifyKey response is shown like the certificate or request in it.", "quantifier": "all builds, reachable states, commands, crypto back ends and platforms whose names and times are well formed, all chains with SVNs of one length, all checks of text and time", "why_tests_cant": "The viewer is checked by hand with one sample certificate of one profile; the response header differs in length between profiles, and text and octet order of types only matter for values the samples do not have.", "anchors": ["tools/src/lib.rs: parse_cert_bytes, unwrap_raw_bytes, parse_x509_cert, parse_csr, parse_extensions, infer_dpe_profile, generate_mermaid_graph", "tools/build.rs", "tools/src/sample_dpe_cert.rs"]}
{"id": "C57", "title": "The sample certificates show the chains that the sample programs build", "statement": "Whenever sample_dpe_cert makes a certificate or a request, the viewer shows it with exactly two rows, the root and a context of type TEST, both with measurement zero and SVN 0, and with the extensions critical exactly if asked for. Whenever the build script of the viewer makes its certificate, the viewer shows root, FW01, B_B1 and LEAF with SVNs 0 to 3 and their cumulative measurements, and never the sibling B_A1; B_B1 is missing exactly if DeriveContext gave it and its parent one handle. With the reference back end sample_dpe_cert fails only if the table has one slot (or two, for a request), the build script only if it has fewer than five, a generator repeats blocks, or a derived key cannot be used.", "quantifier": "all builds, table sizes, seeds and random generators, cryptographic primitives, certificate chains and issuers, both formats, critical or not", "why_tests_cant": "The programs are run by hand with one profile, one table size and a good generator; nothing compares what they print with what they derive.", "anchors": ["tools/src/sample_dpe_cert.rs: add_tcb_info, certify_key, main", "tools/build.rs: derive_context, certify_key, main"]}
{"id": "C58", "title": "What the panic check's program executes", "statement": "The program whose binary the panic check inspects executes no command: its one-byte request is refused as InvalidCommand and leaves the DPE untouched, as is every request of less than twelve bytes. Given any requests from any localities instead, over its dummy crypto and platform, no request panics; every unreadable request is refused without a response, every command is answered; GetProfile always succeeds, InitializeContext succeeds exactly the first time a default context is asked for, and DestroyContext exactly for that context from its locality; every other command is answered with an error and leaves the state unchanged.", "quantifier": "all profiles and table sizes, all lists of requests (byte strings) from any localities", "why_tests_cant": "The check only searches the binary for a panic symbol and never runs the program; requests have unboundedly many lengths and orders.", "anchors": ["verification/panic-check/firmware/src/main.rs: main", "verification/panic-check/firmware/src/crypto_dummy.rs: DummyCrypto", "verification/panic-check/firmware/src/platform_dummy.rs: DefaultPlatform"]}
{"id": "C59", "title": "What the verification suite's tests say about the simulator, and what they leave behind", "statement": "Of the suite's tests of profile, initialisation, rotation and of the negative cases, run against the simulator, each result is determined: TestGetProfile passes exactly with 64 contexts and the requested features; TestInitializeContext passes unless there is neither a default context nor room, and leaves a default context; the tests of rotation pass in a locality that holds the default context (and, for a simulation context, another context) and leave the handles as they were, except for eight bad draws in a row; TestInvalidHandle passes unless the generator draws the one handle it takes for invalid; TestWrongLocality, TestUnsupportedCommand and TestUnsupportedCommandFlag pass exactly when no context is visible from the other locality, or RotateContext is missing, or each of the features is missing. Freshly started targets give these results for whole lists of tests in an order where the tests of rotation come first; in another order they fail.", "quantifier": "all table sizes, supports, reachable device states, primitives and seeds of the reference device, all lists of these tests in the order described", "why_tests_cant": "These are the tests: each runs once, on one device, from one start and in one order. Whether they could fail on a correct device, pass on a wrong one or disturb each other needs all states and orders.", "anchors": ["verification/testing/getProfile.go: TestGetProfile", "verification/testing/initializeContext.go: TestInitializeContext, TestInitializeSimulation", "verification/testing/rotateContextHandle.go: TestRotateContextHandle, TestRotateContextHandleSimulation", "verification/testing/negativeCases.go: TestInvalidHandle, TestWrongLocality, TestUnsupportedCommand, TestUnsupportedCommandFlag", "verification/testing/verification.go: RunTargetTestCases, AllTestCases"]}
{"id": "C60", "title": "What the suite's tests of DeriveContext say about the simulator, and what they leave behind", "statement": "Started on a device whose only context is the default one of the current locality, the tests of DeriveContext that read no certificate pass, unless a call draws eight unusable handles in a row or a DeriveContext answers with the same new handle for child and parent. TestDeriveContext, TestPrivilegesEscalation and the test of disallowed exports lose the default context: it is retired, an active context with another handle is left and no default handle remains; TestChangeLocality and TestInternalInputFlags leave no context; the tests of type uniqueness and of AllowRecursive leave every context as it was. TestSignSimulation passes from any state in which a simulation context can be made, and leaves every context as it was. TestDeriveContextSimulation complains from every state. Each simulator target made for one of these tests passes it when switched on, except that the target of TestDeriveContextSimulation always skips it.", "quantifier": "all table sizes of at least four (two, three) contexts, all reachable states with one context, localities, primitives and seeds of the reference device", "why_tests_cant": "These are the tests: each runs once on one freshly started device. That a test passes whatever the device drew, leaves contexts behind, or can never pass is a statement about all devices, states and generators.", "anchors": ["verification/testing/deriveContext.go: TestDeriveContext, TestDeriveContextDisallowedChildCdiExport, TestChangeLocality, TestInternalInputFlags, TestPrivilegesEscalation, TestDeriveContextSimulation, TestDeriveContextInputTypeUniqueness, TestDeriveContextAllowRecursive", "verification/testing/sign.go: TestSignSimulation", "verification/testing/simulator.go: GetSimulatorTargets", "verification/testing/verification.go: RunTargetTestCases"]}
{"id": "C61", "title": "The verification suite's test of the number of contexts", "statement": "Started on a device with 64 contexts whose only one in use is the default one of the current locality and may be in X.509 certificates, TestMaxTCIs fills every context of the device and is then given a certificate; it reports nothing if Go's parser accepts that certificate and only that it does not otherwise; with elliptic curves it may also stop at CertifyKey, if the key derivation can give a scalar that is no key. On a device with fewer contexts it stops at the derivation for which there is none left. In each case no context is left. The only other outcomes follow a call that draws eight unusable handles in a row or a DeriveContext that answers with the same new handle twice. From power-on, the target made for the test behaves so on every device.", "quantifier": "all reference devices (profile, table size, primitives, certificate chain, names), clients made for them, reachable states with a single default context, localities, parsers of certificates", "why_tests_cant": "It is about what a test reports on every device and generator and what it leaves behind; running it shows one outcome on one build, and nothing looks at the state afterwards.", "anchors": ["verification/testing/deriveContext.go: TestMaxTCIs", "verification/testing/simulator.go", "verification/testing/verification.go: RunTargetTestCases", "verification/sim/transport.go: GetMaxTciNodes", "dpe/src/commands/derive_context.rs: DeriveContextCmd::execute", "dpe/src/commands/certify_key.rs"]}
{"id": "C62", "title": "The verification suite's tests of signatures", "statement": "In every reachable state whose default context in the current locality may be used for signatures and X.509 certificates, TestAsymmetricSigning is handed the public key of that context (derived from the measurements of its chain and the test's label) by CertifyKey and, by Sign, a signature of the test's digest (for ML-DSA, of the external mu of its message under that public key) by a secret key of that public key; it reports exactly what Go's verifier says about key, message and signature. It stops earlier only, with elliptic curves, if the key derivation can give a scalar that is no key, or if Go's parser refuses the certificate or the key. With ML-DSA the test of raw signing does the same for its message, and the test of consistency reports each of the two signatures the verifier refuses, and a difference exactly if the signatures differ; with elliptic curves both are skipped. None of the tests changes the state of the device. With verifiers that accept what the primitives sign, TestAsymmetricSigning passes. After power-on of any target with auto-initialisation and X.509 the device is in such a state.", "quantifier": "all reference devices (profile, table size, primitives, certificate chain, names), clients made for them, reachable states, localities, chains of contexts, verifiers, parsers and functions for mu", "why_tests_cant": "A run checks one key and one signature of one build; that the test says what the verifier says for every context and key, and that it leaves the device as it was, is about all of them. Two of the tests are never run.", "anchors": ["verification/testing/sign.go: TestAsymmetricSigning", "verification/testing/sign_raw.go: TestSignRawMode, TestSignRawConsistencyWithNormalMu", "verification/client/abi.go: CertifyKey, Sign, SignRaw", "dpe/src/commands/sign.rs", "dpe/src/commands/certify_key.rs"]}
{"id": "C63", "title": "The verification suite's test of the certificate chain", "statement": "checkCertificateChain has nothing to say about a chain exactly if both of Go's libraries parse it, as at least one certificate, the linter has no error or warning for any certificate, no certificate but the first is issued by its own subject, and each certificate is validated: with ML-DSA its signature verifies under the key of the certificate before it (the first under its own key, or not at all if it names another issuer), and otherwise Go finds exactly one chain for it from the first certificate through the others. It never indexes outside the chain, and panics only if Go parses the chain as no certificate at all. TestGetCertificateChain with the simulator says exactly that about the platform's chain, in every reachable state and locality, and leaves the device as it was, unless the length of the chain is a multiple of 2048: then it stops before. It is skipped exactly on targets without auto-initialisation or X.509. Intended, and false: that critical extensions and key usages that are not those of TCG DICE are reported. The test says the same about a chain whatever unhandled critical extensions and unknown key usages its certificates have.", "quantifier": "all octet strings and chains of certificates, behaviours of Go's parsers, linter and verifiers, reference devices, clients made for them, reachable states, localities and supports", "why_tests_cant": "The suite's own helpers are what is wrong: the check of extensions cannot fail for any chain, which no chain that passes can show. A run sees the one chain of the simulator.", "anchors": ["verification/testing/getCertificateChain.go: TestGetCertificateChain, checkCertificateChain, validateCertChain", "verification/testing/certifyKey.go: removeTcgDiceCriticalExtensions, removeTcgDiceExtendedKeyUsages, buildVerifyOptions, TcgDiceCriticalExtensions, TcgDiceExtendedKeyUsages", "verification/testing/verification.go: GetCertificateChainTestCase", "verification/client/abi.go: GetCertificateChainABI"]}
{"id": "C64", "title": "The verification suite's checks of a certificate's extensions", "statement": "checkCertificateExtension has nothing to say about a list of extensions exactly if: BasicConstraints is absent (then the certificate counts as no CA) or the first is critical and readable, and the certificate is a CA only where one is expected; the extended key usages are critical and contain that of an embedded CA, or of local attestation for a leaf; the UEID, where a label is given, has the wanted criticality and is the label; in a certificate AuthorityKeyIdentifier is not critical and is the issuer's key identifier, a CA has a SubjectKeyIdentifier that is the first 20 octets of the hash of its key, and a leaf has none; MultiTcbInfo is absent or has the wanted criticality and every TcbInfo no integrity register or only number 0; and KeyUsage is critical with exactly digitalSignature, and keyCertSign for a CA. It never panics. The extensions that DPE writes, of every certificate and request, pass, if Go reads their values as they are meant. The element of MultiTcbInfo that getTcbInfoForHandle takes from a certificate, the last, is that of the context itself. Intended, and false: that BasicConstraints must be included, and that a certificate is a CA where one is expected.", "quantifier": "all lists of extensions, labels, keys, key identifiers, wanted criticalities, behaviours of asn1.Unmarshal and of the hashes; for DPE's certificates all contents of the extensions and all lists of measurements and chains of contexts", "why_tests_cant": "The suite is the test: it never sees an extension that is missing, so that it accepts a missing one does not show. The two passing certificates of a run do not tell what else would pass.", "anchors": ["verification/testing/certifyKey.go: checkCertificateExtension, checkTcgUeidExtension, checkExtendedKeyUsages, checkSubjectKeyIdentifierExtension, checkKeyIdentifierExtension, checkBasicConstraints", "verification/testing/certs.go: getMultiTcbInfo, getBasicConstraints, getSubjectKeyIdentifier, getAuthorityKeyIdentifier, getUeid, getExtendedKeyUsages, getKeyUsage, getTcbInfoForHandle", "dpe/src/x509.rs: CertWriter"]}
