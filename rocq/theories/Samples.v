(** Samples.v -- the programs that make sample certificates: tools/src/sample_dpe_cert.rs
    and tools/build.rs, whose certificate is built into the viewer.  Left out: parsing of
    the command line, and the text form of the PEM block (label and contents are kept). *)
From Coq Require Import String.
From Verif Require Import Base Errors Types StateOps Env Wire Instance Commands Response X509 X509Cert RustCrypto DefaultPlatform Simulator.
Open Scope N_scope.

(** [u32::from_be_bytes] of four letters: "TEST" (sample_dpe_cert.rs:158), "FW01", "B_A1",
    "B_B1", "LEAF" (build.rs:109, 120, 131, 142). *)
Definition letters (l : bytes) : N := be_val l.
Definition str_TEST : bytes := [84; 69; 83; 84].
Definition str_FW01 : bytes := [70; 87; 48; 49].
Definition str_B_A1 : bytes := [66; 95; 65; 49].
Definition str_B_B1 : bytes := [66; 95; 66; 49].
Definition str_LEAF : bytes := [76; 69; 65; 70].

(** sample_dpe_cert.rs:18-50 [mod profile]: as in the simulator, p384 first, then ml-dsa. *)
Definition sample_profile (cf : config) : profile := sim_profile cf.
(** sample_dpe_cert.rs:140, build.rs:83-84: supported features. *)
Definition sample_support : N := N.lor (N.lor (bit 29) (bit 26)) (bit 25).
Definition build_support : N := N.lor (N.lor (N.lor (bit 29) (bit 26)) (bit 19)) (bit 30).

(** The [pem::Pem] that is printed or written: label and contents. *)
Definition block : Type := (string * bytes)%type.

Section Samples.
  Variable cf : config.
  Variable R : Type.
  Variable pr : primitives R.
  Variables chain issuer serial ski : bytes.
  Notation co := (rust_ops R pr (profile_alg (prof cf)) (backend_digest (prof cf))).
  Notation po := (default_platform chain issuer serial ski).
  Notation world := (world (rust_c R) unit).

  (** [dpe.command_hdr(...)] followed by the structure, executed in locality 0; [None]:
      the [unwrap] panics. *)
  Definition send (cmd : command) (w : world) : option response * world :=
    match execute_serialized_command cf (rust_c R) unit co po (x509_gen cf (rust_c R) unit co po) 0 (serialize_command cf cmd) w with
    | (Ok r, w') => (Some r, w')
    | (_, w') => (None, w')
    end.

  (** build.rs:20-54 [derive_context]: the handles of parent and child; [None]: a panic.
      sample_dpe_cert.rs:54-86 [add_tcb_info] with the default handle, MAKE_DEFAULT and
      the handles dropped. *)
  Definition sample_derive (h data : bytes) (ty svn flags : N) (w : world) : option (bytes * bytes) * world :=
    match send (CmdDeriveContext
                  {| dc_handle := h; dc_data := data; dc_flags := N.lor flags (bit 25); dc_tci_type := ty;
                     dc_target_locality := 0; dc_svn := svn |}) w with
    | (Some (RespDeriveContext _ child parent), w') => (Some (parent, child), w')
    | (_, w') => (None, w')
    end.

  (** build.rs:56-80, sample_dpe_cert.rs:88-113 [certify_key]: the octets of the
      certificate. *)
  Definition sample_certify (p : profile) (h : bytes) (format : N) (w : world) : option bytes :=
    let k := {| ck_handle := h; ck_flags := 0; ck_format := format; ck_label := repeat 0 (profile_hash_size p) |} in
    match fst (send (CmdCertifyKey (match p with
                                    | P256Sha256 => CertifyP256 k | P384Sha384 => CertifyP384 k | Mldsa87 => CertifyMldsa87 k
                                    end)) w) with
    | Some (RespCertifyKey q hd x pk n c) =>
        match response_cert (RespCertifyKey q hd x pk n c) with Ok l => Some l | _ => None end
    | _ => None
    end.

  (** A new back end, state and instance: sample_dpe_cert.rs:147-153, build.rs:87-97. *)
  Definition sample_start (support flags : N) (seed : R) : option world :=
    match dpe_new cf (rust_c R) unit co po (mkWorld (state_new cf support flags) (rust_new R seed) tt []) with
    | (Ok _, w) => Some w
    | _ => None
    end.

  (** sample_dpe_cert.rs:132-174 [main]. *)
  Definition sample_main (critical csr : bool) (seed : R) : option block :=
    match sample_start sample_support (if critical then bit 15 else 0) seed with
    | None => None
    | Some w =>
        match sample_derive (repeat 0 handle_size) (repeat 0 (tci_size cf)) (letters str_TEST) 0 (bit 28) w with
        | (None, _) => None
        | (Some _, w) =>
            match sample_certify (prof cf) (repeat 0 handle_size) (if csr then 1 else 0) w with
            | None => None
            | Some c => Some (if csr then "PKCS7"%string else "CERTIFICATE"%string, c)
            end
        end
    end.

  (** build.rs:82-163 [main]; the build script always has the P-384 profile (the theorems
      ask for it). *)
  Definition build_main (seed : R) : option block :=
    match sample_start build_support 0 seed with
    | None => None
    | Some w =>
        let zeros := repeat 0 (tci_size cf) in
        match sample_derive (repeat 0 handle_size) zeros (letters str_FW01) 1 0 w with
        | (None, _) => None
        | (Some (_, parent), w) =>
            match sample_derive parent zeros (letters str_B_A1) 2 (bit 29) w with
            | (None, _) => None
            | (Some (parent, _), w) =>
                match sample_derive parent zeros (letters str_B_B1) 2 (bit 29) w with
                | (None, _) => None
                | (Some (_, branch), w) =>
                    match sample_derive branch zeros (letters str_LEAF) 3 0 w with
                    | (None, _) => None
                    | (Some (_, leaf), w) =>
                        match sample_certify P384Sha384 leaf 0 w with
                        | None => None
                        | Some c => Some ("CERTIFICATE"%string, c)
                        end
                    end
                end
            end
        end
    end.
End Samples.
