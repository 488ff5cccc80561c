{
 "claims": [
  {
   "property": "C01",
   "status": "proved",
   "theorems": [
    "C01_unowned_handle_refused",
    "C01_effect_needs_owner"
   ],
   "note": "For all states, commands, localities and environments. Errors reported before the handle is looked at are listed by `early`; UpdateContextMeasurement reports InvalidParentLocality."
  },
  {
   "property": "C02",
   "status": "proved",
   "theorems": [
    "C02_handle_consumed",
    "C02_replay_refused",
    "C02_update_refuted",
    "C02_default_handle_kept"
   ],
   "note": "For every history whose random sources do not repeat values within a command. UpdateContextMeasurement needs one more condition on the random source (C02_update_refuted shows it is needed)."
  },
  {
   "property": "C03",
   "status": "proved",
   "theorems": [
    "C03_handles_distinct",
    "C03_any_source_refuted"
   ],
   "note": "With the proviso on the random source; C03_any_source_refuted shows the proviso is needed."
  },
  {
   "property": "C04",
   "status": "proved",
   "theorems": [
    "C04_error_atomicity",
    "C04_with_room",
    "C04_plain_refuted"
   ],
   "note": "The three exceptions are exact; C04_plain_refuted gives a witness for each. C04_with_room: with room for the fixed part of the response only the last two remain."
  },
  {
   "property": "C05",
   "status": "proved",
   "theorems": [
    "C05_forest"
   ],
   "note": "All histories of commands and instance creations."
  },
  {
   "property": "C06",
   "status": "proved",
   "theorems": [
    "C06_first_succeeds",
    "C06_new_state",
    "C06_initialised_once",
    "C06_refused_afterwards",
    "C06_single_tree"
   ],
   "note": "All histories, counting InitializeContext, auto-initialising and measured instance creation."
  },
  {
   "property": "C07",
   "status": "proved",
   "theorems": [
    "C07_type_of_tree",
    "C07_type_kept",
    "C07_sign_rejected",
    "C07_export_rejected",
    "C07_only_if_supported"
   ],
   "note": ""
  },
  {
   "property": "C08",
   "status": "proved",
   "theorems": [
    "C08_permissions_shrink",
    "C08_never_granted"
   ],
   "note": ""
  },
  {
   "property": "C09",
   "status": "proved",
   "theorems": [
    "C09_siblings_distinct",
    "C09_duplicate_refused"
   ],
   "note": ""
  },
  {
   "property": "C10",
   "status": "proved",
   "theorems": [
    "C10_default_alone",
    "C10_preserved_except_init",
    "C10_all_histories_refuted"
   ],
   "note": "Holds for histories where InitializeContext is only issued in localities without active contexts; C10_all_histories_refuted is the witness against the unrestricted claim."
  },
  {
   "property": "C11",
   "status": "proved",
   "theorems": [
    "C11_destroy_exact",
    "C11_doomed_characterised",
    "C11_destroy_succeeds"
   ],
   "note": ""
  },
  {
   "property": "C12",
   "status": "proved",
   "theorems": [
    "C12_one_child"
   ],
   "note": "Full effect including the frame, as child_spec in Contract.v."
  },
  {
   "property": "C13",
   "status": "proved",
   "theorems": [
    "C13_recursive",
    "C13_update",
    "C13_update_target_unique"
   ],
   "note": "Full effect including the frame, as recursive_spec and update_spec in Contract.v."
  },
  {
   "property": "C14",
   "status": "proved",
   "theorems": [
    "C14_every_history_has_a_ledger",
    "C14_chain",
    "C14_fold",
    "C14_only_presented",
    "C14_step"
   ],
   "note": "All histories from new, create, new_auto_init and any commands, any environments. A command counts as carried out if it succeeds or fails only because the response buffer is too small (the code has changed the state by then)."
  },
  {
   "property": "C15",
   "status": "partial",
   "theorems": [
    "C15_input",
    "C15_injective_partial",
    "C15_depends_only_on",
    "C15_injective_refuted"
   ],
   "note": "The hashed bytes are determined exactly (C15_input). Injectivity is proved for chains whose certificate-chain parts have equal length (C15_injective_partial); unrestricted injectivity is false: nothing separates context records from certificate-chain bytes (C15_injective_refuted, a reachable witness)."
  },
  {
   "property": "C16",
   "status": "proved",
   "theorems": [
    "C16_certify_key",
    "C16_sign",
    "C16_kept",
    "C16_same_key",
    "C16_distinct",
    "C16_reference"
   ],
   "note": "For back ends that compute functions (record faithful) and a platform with constant identity (steady); C16_distinct is the converse up to collisions. C16_reference instantiates both for the reference crypto back end and platform."
  },
  {
   "property": "C17",
   "status": "proved",
   "theorems": [
    "C17_rotate_effect",
    "C17_unsupported_rejected"
   ],
   "note": ""
  },
  {
   "property": "C18",
   "status": "proved",
   "theorems": [
    "C18_init_capacity",
    "C18_derive_capacity",
    "C18_bounded",
    "C18_creation",
    "C18_destruction"
   ],
   "note": "For DeriveContext the failure to draw a fresh handle for a retained parent is reported before MaxTcis."
  },
  {
   "property": "C19",
   "status": "proved",
   "theorems": [
    "C19_accepts_exactly",
    "C19_errors_are_real",
    "C19_complete_integrity_refuted"
   ],
   "note": "Stronger than stated: an exact characterisation of what is accepted, and every reported error is a real defect. C19_complete_integrity_refuted shows what the validator does not look for."
  },
  {
   "property": "C20",
   "status": "proved",
   "theorems": [
    "C20_accepts_reachable",
    "C20_only_localities",
    "C20_all_histories_refuted"
   ],
   "note": "With the proviso every reachable state is accepted; without it only the two locality complaints are possible (C20_only_localities) and both occur (C20_all_histories_refuted)."
  },
  {
   "property": "C21",
   "status": "proved",
   "theorems": [
    "C21_only_the_environment",
    "C21_commands",
    "C21_bytes",
    "C21_new",
    "C21_endless_chain_refuted",
    "C21_reference",
    "C21_x509_bytes"
   ],
   "note": "For every well-formed state and byte string; C21_x509_bytes is the whole model including the certificate writer. The platform must end its certificate chain (without that the claim is refuted by C21_endless_chain_refuted). C21_reference removes that hypothesis for the reference environment."
  },
  {
   "property": "C22",
   "status": "proved",
   "theorems": [
    "C22_accepts_exactly",
    "C22_unambiguous",
    "C22_round_trip",
    "C22_rejects"
   ],
   "note": "Acceptance is characterised exactly (iff) against an encoding table written separately from the model; inputs are lists of bytes."
  },
  {
   "property": "C23",
   "status": "proved",
   "theorems": [
    "C23_round_trip",
    "C23_canonical",
    "C23_partial_round_trip",
    "C23_execute",
    "C23_wire",
    "C23_serialized_command",
    "C23_x509_wire",
    "C23_x509_execute"
   ],
   "note": "Response structures, partial transmission of certificates, execute, the byte interface; C23_x509_* with the modelled certificate writer."
  },
  {
   "property": "C24",
   "status": "proved",
   "theorems": [
    "C24_status_codes"
   ],
   "note": "Equal codes exactly for errors that differ only in the internal code or a vendor code."
  },
  {
   "property": "C25",
   "status": "proved",
   "theorems": [
    "C25_write",
    "C25_confined",
    "C25_read",
    "C25_read_after_write",
    "C25_capacity_and_clear",
    "C25_commands_use_it"
   ],
   "note": "Slice and nested offset views with bounded usize arithmetic; storage not larger than usize::MAX."
  },
  {
   "property": "C26",
   "status": "proved",
   "theorems": [
    "C26_double_ended",
    "C26_up_and_down",
    "C26_chain",
    "C26_corrupted"
   ],
   "note": "Proved for every well-formed state and every interleaving of next and next_back; on arbitrary corrupted arrays the walk is proved never to crash."
  },
  {
   "property": "C27",
   "status": "proved",
   "theorems": [
    "C27_integers",
    "C27_empty_refuted"
   ],
   "note": "C27_empty_refuted: the writer emits an integer without contents for an empty value."
  },
  {
   "property": "C28",
   "status": "proved",
   "theorems": [
    "C28_lengths",
    "C28_huge_refuted"
   ],
   "note": "Sizes at or above 2^32 lose their high bytes (C28_huge_refuted), beyond any buffer the code uses."
  },
  {
   "property": "C29",
   "status": "partial",
   "theorems": [
    "C29_decoder",
    "C29_certificates",
    "C29_requests",
    "C29_outside",
    "C29_uneven_refuted"
   ],
   "note": "Proved for chains whose SVNs are even: the DER lengths of the SVNs sum to as much as if all were as long as the root's (for example all of one length). That condition is exact: by C31_exact_certificates and C31_exact_requests the output can be read exactly then, and C29_uneven_refuted is a reachable state in which CertifyKey succeeds with bytes that are no DER value at all: the writer sizes every TcbInfo entry by the root's. C29_outside: whatever the SVNs, everything outside the certificate's extensions is right."
  },
  {
   "property": "C30",
   "status": "proved",
   "theorems": [
    "C30_commands",
    "C30_sizes",
    "C30_frame"
   ],
   "note": ""
  },
  {
   "property": "C31",
   "status": "partial",
   "theorems": [
    "C31_certificates",
    "C31_requests",
    "C31_exact_certificates",
    "C31_exact_requests"
   ],
   "note": "Proved for chains whose SVNs are even (see C29). C31_exact_certificates and C31_exact_requests: a verifier that requires the fields of RFC 5280 / RFC 2986 can read measurements from the output if and only if they are."
  },
  {
   "property": "C32",
   "status": "proved",
   "theorems": [
    "C32_requests",
    "C32_reassembles",
    "C32_no_overflow"
   ],
   "note": "For the reference platform (platform/src/default.rs) with chains up to 4 GB less 2048 bytes; other platforms choose their own chain."
  },
  {
   "property": "C33",
   "status": "proved",
   "theorems": [
    "C33_export",
    "C33_no_new_context",
    "C33_commands_call",
    "C33_backend_bounded",
    "C33_backend_handle",
    "C33_backend_origin",
    "C33_backend_hash",
    "C33_exported_key"
   ],
   "note": "C33_export and C33_no_new_context: the state, for every back end. C33_backend_*: the table of exported CDIs of the reference back end (crypto/src/rustcrypto.rs). C33_exported_key: certificate and handle at command level, for every later use of the back end."
  },
  {
   "property": "C34",
   "status": "proved",
   "theorems": [
    "C34_refused",
    "C34_auto_init_refused",
    "C34_unused",
    "C34_mask_kept"
   ],
   "note": "Run-time support bits of the default build; for disable_* cargo features see C46."
  },
  {
   "property": "C35",
   "status": "proved",
   "theorems": [
    "C35_pure_queries",
    "C35_only_the_handle"
   ],
   "note": ""
  },
  {
   "property": "C36",
   "status": "proved",
   "theorems": [
    "C36_new_succeeds",
    "C36_new",
    "C36_new_measured"
   ],
   "note": ""
  },
  {
   "property": "C37",
   "status": "proved",
   "theorems": [
    "C37_step",
    "C37_other_localities"
   ],
   "note": "Per step of every well-formed state (hence of every history)."
  },
  {
   "property": "C38",
   "status": "proved",
   "theorems": [
    "C38_init_from_scratch",
    "C38_child_from_scratch",
    "C38_free_slots_blank"
   ],
   "note": "Without assuming well-formed states; for children the hash must be a function."
  },
  {
   "property": "C39",
   "status": "proved",
   "theorems": [
    "C39_generate_new_handle"
   ],
   "note": ""
  },
  {
   "property": "C40",
   "status": "proved",
   "theorems": [
    "C40_write_hex",
    "C40_subject",
    "C40_injective"
   ],
   "note": ""
  },
  {
   "property": "C41",
   "status": "proved",
   "theorems": [
    "C41_reported",
    "C41_only_the_response"
   ],
   "note": ""
  },
  {
   "property": "C42",
   "status": "proved",
   "theorems": [
    "C42_reasons",
    "C42_available",
    "C42_destroy",
    "C42_writer",
    "C42_kind_of_key",
    "C42_certificate_reasons",
    "C42_reference",
    "C42_certificates_available"
   ],
   "note": "Complete list of refusals per command (C42_reasons) and success of legitimate requests (C42_available) for an arbitrary writer; with the modelled writer of certificates and requests C42_writer, C42_certificate_reasons (C42_reference for the reference platform and back end) and C42_certificates_available. The environment's faults are existential: some call really answered with that error."
  },
  {
   "property": "C43",
   "status": "partial",
   "theorems": [
    "C43_reference",
    "C43_certificates",
    "C43_requests"
   ],
   "note": "For chains whose SVNs are even (see C29), which is exact: otherwise certificate_facts, read_issue and request_facts fail (C31_exact_certificates, C31_exact_requests)."
  },
  {
   "property": "C44",
   "status": "proved",
   "theorems": [
    "C44_possession",
    "C44_possession_any"
   ],
   "note": "C44_possession_any: all chains, whatever their SVNs. C44_possession: if the SVNs are even (see C29) the request is moreover one DER value and its facts are read from it."
  },
  {
   "property": "C45",
   "status": "partial",
   "theorems": [
    "C45_all_but_requests",
    "C45_requests_partial",
    "C45_reference",
    "C45_requests_refuted",
    "C45_sizes_refuted"
   ],
   "note": "Proved for every command except CSR requests, and for CSR requests whose chain does not use all slots; also instantiated for the reference platform and back end. C45_requests_refuted: with a full chain and large SVNs a CSR needs more than MAX_CERT_SIZE bytes, so execute fails. C45_sizes_refuted: with features p256 and p384 together the P-256 sizes are used for P-384 instances."
  },
  {
   "property": "C46",
   "status": "proved",
   "theorems": [
    "C46_support",
    "C46_commands",
    "C46_requests",
    "C46_carried_over_refuted",
    "C46_left_out"
   ],
   "note": "Features.v repeats the gated functions with a feature mask d; C46_commands holds in every well-formed state that supports nothing left out, C46_requests for all request sequences to a new instance. C46_carried_over_refuted is outside the property: for a state created by another build and accepted by the validator the equality fails (disable_internal_info changes the key). disable_x509 does not seem to compile (x509.rs:2625); for it the certificate writer of exported CDIs is taken from the default build."
  },
  {
   "property": "C47",
   "status": "partial",
   "theorems": [
    "C47_requests_partial",
    "C47_key_identifier_refuted"
   ],
   "note": "Proved for signers named by issuer and serial number. C47_key_identifier_refuted: a signer named by a key identifier is written as an OCTET STRING inside the implicitly tagged field, so RFC 5652 readers get two octets too many in front of the identifier. For chains with any SVNs."
  },
  {
   "property": "C48",
   "status": "proved",
   "theorems": [
    "C48_commands",
    "C48_creation",
    "C48_requests",
    "C48_no_panic"
   ],
   "note": "Cfi.v repeats every function with an assertion. The equality is unconditional: it holds in ill-formed states too."
  },
  {
   "property": "C49",
   "status": "partial",
   "theorems": [
    "C49_harmless",
    "C49_lives",
    "C49_creation",
    "C49_any_fault",
    "C49_exposed_refuted",
    "C49_auto_init_refuted"
   ],
   "note": "C49_harmless and C49_lives: any number of wrong decisions at the places re_checked lists. C49_any_fault: what holds of a successful command under arbitrary faults. C49_exposed_refuted and C49_auto_init_refuted: a single wrong decision at each other place gives success with another effect, from a reachable state (the two places indexed by a slot: shown for slot 0). Faults are wrong outcomes of whole decisions; see the head of Cfi.v."
  },
  {
   "property": "C50",
   "status": "proved",
   "theorems": [
    "C50_start",
    "C50_request",
    "C50_conversation",
    "C50_robust_refuted"
   ],
   "note": "C50_start: start-up for every command line. C50_request: one connection. C50_conversation: any finite sequence of connections. C50_robust_refuted: two messages that end the simulator in every state. The certificate chain must be non-empty and not longer than the loop bound of the model."
  },
  {
   "property": "C51",
   "status": "proved",
   "theorems": [
    "C51_calls",
    "C51_logged",
    "C51_honest",
    "C51_silent",
    "C51_signatures",
    "C51_reference"
   ],
   "note": "C51_calls: order, arguments and errors of all calls, for every back end. C51_logged: the same for the log written by a recording back end. C51_honest, C51_silent, C51_signatures: consequences. C51_reference: why calls fail with the reference back end; it leaves CESize of the certificate writer, which C52_errors rules out."
  },
  {
   "property": "C52",
   "status": "proved",
   "theorems": [
    "C52_errors",
    "C52_no_crash",
    "C52_available",
    "C52_simulator",
    "C52_atomic",
    "C52_harness"
   ],
   "note": "C52_errors: complete list of errors that are not the client's. C52_no_crash, C52_available, C52_atomic: aborts, success of legitimate requests, unchanged state after failures. C52_harness: the fuzz target returns for every input; its Example shows that a dead random source makes it panic."
  },
  {
   "property": "C53",
   "status": "proved",
   "theorems": [
    "C53_builds",
    "C53_new",
    "C53_version",
    "C53_max_tci_refuted",
    "C53_power_on",
    "C53_call",
    "C53_session",
    "C53_refused",
    "C53_calm",
    "C53_sign_flag_refuted",
    "C53_status"
   ],
   "note": "C53_builds, C53_new, C53_version, C53_power_on: which clients fit, connecting, versions, features. C53_call, C53_session: calls mean the right commands and report the right results, over all sequences. C53_refused, C53_calm: wrong lengths, any device. C53_status: texts for all errors. C53_sign_flag_refuted, C53_max_tci_refuted: the exceptions named in the statement."
  },
  {
   "property": "C54",
   "status": "partial",
   "theorems": [
    "C54_chain",
    "C54_simulator_partial",
    "C54_simulator_refuted",
    "C54_hostile_refuted"
   ],
   "note": "C54_chain: exact outcome for any device and chain. C54_simulator_partial: with the simulator, for lengths that are no multiple of 2048. C54_simulator_refuted: for all other lengths the client gets an error. C54_hostile_refuted: a device can make the client panic or loop for ever."
  },
  {
   "property": "C55",
   "status": "partial",
   "theorems": [
    "C55_count",
    "C55_measure",
    "C55_growth",
    "C55_ml_dsa",
    "C55_verified_refuted",
    "C55_constants_refuted",
    "C55_both_refuted"
   ],
   "note": "Exact sizes, the reasons for not measuring, growth per context and (for ML-DSA) the bound for all counts are proved. For ECDSA the constants called verified are no bound for counts that are not sampled (C55_verified_refuted), the constants of dpe/build.rs are too small for P256 with MAX_HANDLES = 2 (C55_constants_refuted), and with p256 and p384 together the tool measures P384 keys under the name P256 (C55_both_refuted)."
  },
  {
   "property": "C56",
   "status": "partial",
   "theorems": [
    "C56_certificates",
    "C56_requests",
    "C56_graph",
    "C56_chain",
    "C56_response",
    "C56_response_p256",
    "C56_response_refuted",
    "C56_uneven_refuted",
    "C56_trailing_refuted",
    "C56_type_refuted",
    "C56_constraints"
   ],
   "note": "Proved for certificates, requests and P384 responses (C56_certificates, C56_requests, C56_response) of chains with SVNs of one DER length, the graph (C56_graph, C56_chain), and the basic constraints of any certificate (C56_constraints). Missing because the code fails: no P256 response is shown (C56_response_p256, _refuted: the viewer skips 128 octets for every profile), chains with SVNs of different length (C56_uneven_refuted), CMS messages followed by further octets (C56_trailing_refuted), and types made from text are shown backwards (C56_type_refuted)."
  },
  {
   "property": "C57",
   "status": "proved",
   "theorems": [
    "C57_sample",
    "C57_build",
    "C57_sample_runs",
    "C57_build_runs",
    "C57_build_refuted"
   ],
   "note": "C57_sample, C57_build: what is shown of every block made. C57_sample_runs, C57_build_runs: when one is made. C57_build_refuted: with a generator that repeats, the certificate lacks the context B_B1."
  },
  {
   "property": "C58",
   "status": "proved",
   "theorems": [
    "C58_main",
    "C58_short",
    "C58_commands",
    "C58_requests",
    "C58_reach"
   ],
   "note": "C58_main: the program as it is. C58_short: requests shorter than the header. C58_commands, C58_requests: three phases (before, with, after the one context) over any requests. C58_reach: what can succeed and how often. The search for the symbol in the ELF file is not modelled."
  },
  {
   "property": "C59",
   "status": "proved",
   "theorems": [
    "C59_get_profile",
    "C59_initialize",
    "C59_initialize_simulation",
    "C59_rotate",
    "C59_rotate_simulation",
    "C59_invalid_handle",
    "C59_wrong_locality",
    "C59_unsupported_command",
    "C59_unsupported_flag",
    "C59_target_profile",
    "C59_target_none",
    "C59_target_negative",
    "C59_target_sequence",
    "C59_rotate_simulation_needs"
   ],
   "note": "Per test: C59_get_profile, C59_initialize, C59_initialize_simulation, C59_rotate, C59_rotate_simulation, C59_invalid_handle, C59_wrong_locality, C59_unsupported_command, C59_unsupported_flag, from any reachable state. Targets from power-on: C59_target_profile, C59_target_none, C59_target_negative, C59_target_sequence (induction over the list of tests). C59_rotate_simulation_needs: what that test needs beyond its declared support. Tests of DeriveContext: C60. The other tests of the suite (CertifyKey, Sign, chain, TPM) are not modelled."
  },
  {
   "property": "C60",
   "status": "proved",
   "theorems": [
    "C60_derive",
    "C60_disallowed_export",
    "C60_privileges",
    "C60_change_locality",
    "C60_internal_flags",
    "C60_type_uniqueness",
    "C60_allow_recursive",
    "C60_sign_simulation",
    "C60_derive_simulation",
    "C60_targets"
   ],
   "note": "Per test, from any reachable state whose only context is the default one: C60_derive, C60_disallowed_export, C60_privileges, C60_change_locality, C60_internal_flags, C60_type_uniqueness, C60_allow_recursive; from any reachable state: C60_sign_simulation, C60_derive_simulation (it never passes). From power-on: C60_targets. The exceptions (eight unusable handles, twin handles) are shown to be needed in C60_targets_case. The tests that read certificates (recursive, on derived contexts, exported CDI) are not modelled; TestMaxTCIs: C61."
  },
  {
   "property": "C61",
   "status": "proved",
   "theorems": [
    "C61_max_tcis",
    "C61_fewer",
    "C61_target"
   ],
   "note": "From any reachable state whose only context is the default one: C61_max_tcis (64 contexts), C61_fewer (fewer). From power-on: C61_target. A device has at most 64 contexts (the width of the children bitmap). x509.ParseCertificate is a parameter."
  },
  {
   "property": "C62",
   "status": "proved",
   "theorems": [
    "C62_p256",
    "C62_p384",
    "C62_mldsa",
    "C62_raw_skipped",
    "C62_passes",
    "C62_target",
    "C62_run",
    "C62_data"
   ],
   "note": "TestAsymmetricSigning: C62_p256, C62_p384, C62_mldsa (which also has the two tests of raw signing), C62_raw_skipped, C62_passes. From power-on: C62_target. Go's parser of certificates, its verifiers and CalculateExternalMu (64 bytes) are parameters. The secret keys in the statements are keys with the public key of the context; that they are one and the same is not claimed."
  },
  {
   "property": "C63",
   "status": "proved",
   "theorems": [
    "C63_check",
    "C63_simulator",
    "C63_run",
    "C63_extensions",
    "C63_extensions_refuted",
    "C63_signature_refuted"
   ],
   "note": "The check: C63_check; the test with the simulator: C63_simulator; as the suite runs it: C63_run; that extensions and key usages make no difference: C63_extensions. C63_extensions_refuted and C63_signature_refuted are witnesses against what the code intends: an unknown critical extension and an unknown key usage are accepted; with ML-DSA a first certificate that names another issuer is accepted with any signature. Go's parsers, linter and verifiers are parameters, and the texts that are logged are left out."
  },
  {
   "property": "C64",
   "status": "proved",
   "theorems": [
    "C64_check",
    "C64_dpe",
    "C64_own",
    "C64_missing_refuted",
    "C64_ca_refuted"
   ],
   "note": "The check: C64_check; the extensions of DPE's certificates and requests, which are encoded as C29 and C43 say: C64_dpe, under the hypothesis that asn1.Unmarshal reads the values in question as they are meant. The element that getTcbInfoForHandle takes: C64_own; of that function only the choice of the element is modelled. C64_missing_refuted and C64_ca_refuted are witnesses against what the code's comments and the callers intend: a certificate without BasicConstraints and MultiTcbInfo passes, and one that is no CA passes as that of an exported CDI. asn1.Unmarshal and the hashes are parameters; the parsing of the certificate and the texts that are logged are left out."
  }
 ]
}
