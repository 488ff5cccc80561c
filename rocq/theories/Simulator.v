(** Simulator.v -- the simulator (simulator/src/main.rs) and the fuzz target
    (dpe/fuzz/src/fuzz_target_1.rs): programs around the library that run it on byte
    strings from outside.  Logging and the socket file are not modelled. *)
From Verif Require Import Base Errors Types StateOps Env Wire Instance Commands Response X509 X509Cert RustCrypto DefaultPlatform.
Open Scope N_scope.

(** main.rs:98-145 [Args]. *)
Record sim_args := {
  sa_simulation : bool;
  sa_recursive : bool;
  sa_auto_init : bool;
  sa_rotate_context : bool;
  sa_x509 : bool;
  sa_csr : bool;
  sa_internal_info : bool;
  sa_internal_dice : bool;
  sa_retain_parent_context : bool;
  sa_cdi_export : bool;
  sa_critical : bool
}.

(** bitflags [set]: inserts or removes the bit. *)
Definition flag_set (m i : N) (b : bool) : N := if b then N.lor m (bit i) else N.ldiff m (bit i).

(** main.rs:162-176: [Support::default()] is 0. *)
Definition sim_support (a : sim_args) : N :=
  let m := flag_set 0 31 (sa_simulation a) in
  let m := flag_set m 29 (sa_auto_init a) in
  let m := flag_set m 26 (sa_x509 a) in
  let m := flag_set m 25 (sa_csr a) in
  let m := flag_set m 30 (sa_recursive a) in
  let m := flag_set m 27 (sa_rotate_context a) in
  let m := flag_set m 21 (sa_internal_dice a) in
  let m := flag_set m 22 (sa_internal_info a) in
  let m := flag_set m 19 (sa_retain_parent_context a) in
  flag_set m 18 (sa_cdi_export a).

(** main.rs:178-182; MARK_DICE_EXTENSIONS_CRITICAL is bit 15 (dpe/src/state.rs). *)
Definition sim_flags (a : sim_args) : N := flag_set 0 15 (sa_critical a).

(** main.rs:19-48 [profile]: one profile per build. *)
Definition sim_profile (cf : config) : profile :=
  if feat_p384 cf then P384Sha384 else if feat_mldsa cf then Mldsa87 else P256Sha256.
(** crypto/src/rustcrypto.rs:327-352: the algorithms of [new_ecc256], [new_ecc384] and
    [new_mldsa87]. *)
Definition backend_digest (p : profile) : digest_alg :=
  match p with P256Sha256 => AlgSha256 | P384Sha384 | Mldsa87 => AlgSha384 end.

(** main.rs:68-80, fuzz_target_1.rs:66-78: the status of a response. *)
Definition response_code (r : response) : N :=
  match r with
  | RespGetProfile h _ _ _ _ _ _ | RespInitCtx h _ | RespDeriveContext h _ _ | RespExportedCdi h _ _ _ _ _
  | RespRotateCtx h _ | RespCertifyKey _ h _ _ _ _ | RespSign _ h _ _ | RespDestroyCtx h | RespCertificateChain h _ _
  | RespUpdate h _ _ | RespError h => rh_status h
  end.

(** support.rs:9-22 [Support::all()]. *)
Definition support_all : N := 0xEE6C0000.

(** The derived equality of contexts (dpe/src/context.rs:25-49) and of their fields. *)
Definition context_eq_dec (a b : context) : {a = b} + {a <> b}.
Proof. repeat decide equality. Defined.
Definition contexts_eqb (a b : list context) : bool := if list_eq_dec context_eq_dec a b then true else false.

Inductive sim_result := Answered (b : bytes) | Panicked.
(** What a connection brings: the bytes its first [read] returned ([None]: an error),
    and whether the peer still takes the answer. *)
Record connection := { cn_read : option bytes; cn_open : bool }.

(** main.rs:52: the size of the receive buffer. *)
Definition sim_buf : nat := N.to_nat 4096.

Section Simulator.
  Variable cf : config.
  Variable R : Type.
  Variable pr : primitives R.
  Variables chain issuer serial ski : bytes.
  Definition sim_ops : crypto_ops (rust_c R) := rust_ops R pr (profile_alg (prof cf)) (backend_digest (prof cf)).
  Definition sim_platform : platform_ops unit := default_platform chain issuer serial ski.
  Notation world := (world (rust_c R) unit).
  Notation run_serialized :=
    (execute_serialized_command cf (rust_c R) unit sim_ops sim_platform (x509_gen cf (rust_c R) unit sim_ops sim_platform)).

  (** main.rs:51-92 [handle_request].  [buf[..4]] of a buffer that [read] filled only in
      part is made of zeros behind the bytes read; [&buf[4..len]] panics for [len < 4];
      the [unwrap]s panic on errors. *)
  Definition handle_request (cn : connection) (w : world) : sim_result * world :=
    match cn_read cn with
    | None => (Panicked, w)
    | Some got =>
        let buf := firstn sim_buf (got ++ repeat 0 sim_buf) in
        let n := Nat.min (length got) sim_buf in
        let locality := le_val (firstn 4 buf) in
        if Nat.ltb n 4 then (Panicked, w)
        else
          let cmd := firstn (n - 4) (skipn 4 buf) in
          match run_serialized locality cmd w with
          | (Ok resp, w') =>
              match response_bytes_partial cf resp with
              | Ok b => if cn_open cn then (Answered b, w') else (Panicked, w')
              | _ => (Panicked, w')
              end
          | (_, w') => (Panicked, w')
          end
    end.

  (** main.rs:198-211: one request per connection, until the first panic ends the
      process. *)
  Fixpoint serve (l : list connection) (w : world) : list sim_result * world :=
    match l with
    | [] => ([], w)
    | cn :: l =>
        match handle_request cn w with
        | (Answered b, w') => let (rs, w'') := serve l w' in (Answered b :: rs, w'')
        | (Panicked, w') => ([Panicked], w')
        end
    end.

  (** main.rs:184-194: a new back end and state, [DpeInstance::new]. *)
  Definition sim_start (a : sim_args) (seed : R) : result unit * world :=
    dpe_new cf (rust_c R) unit sim_ops sim_platform
      (mkWorld (state_new cf (sim_support a) (sim_flags a)) (rust_new R seed) tt []).

  (** fuzz_target_1.rs:33-92 [harness]; [true]: returned, [false]: panicked. *)
  Definition harness (seed : R) (data : bytes) : bool :=
    match dpe_new cf (rust_c R) unit sim_ops sim_platform
            (mkWorld (state_new cf support_all 0) (rust_new R seed) tt []) with
    | (Ok _, w) =>
        match deserialize_command cf data with
        | Ok _ =>
            match run_serialized default_auto_init_locality data w with
            | (Ok resp, w') =>
                let code := response_code resp in
                if negb (contexts_eqb (st_contexts (w_st w')) (st_contexts (w_st w))) && negb (N.eqb code 0) then false
                else if N.eqb code (get_error_code (InternalError DeriveCtxRespSliceOob)) then false
                else true
            | _ => false
            end
        | _ => true
        end
    | _ => false
    end.
End Simulator.
