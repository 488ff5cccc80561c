(** CertTool.v -- the tool that measures certificates and derives the constants of
    dpe/build.rs from them (tools/src/cert_size/main.rs, benchmark.rs).  Left out: the
    parsing of the command line and the layout of what is printed. *)
From Verif Require Import Base Errors Types StateOps Env Wire Instance Commands Response X509 X509Cert RustCrypto DefaultPlatform Simulator.
Open Scope N_scope.

(** main.rs:36-42 [Algorithm]. *)
Inductive algorithm := Ec | Mldsa.

(** main.rs:44-52 [Algorithm::default]. *)
Definition tool_default (cf : config) : algorithm := if feat_p256 cf || feat_p384 cf then Ec else Mldsa.

(** main.rs:68-80 [From<Algorithm> for DpeProfile] (and 54-66 for the platform): the arms
    compiled in, in order; [None]: the panic of the last one. *)
Definition tool_profile (cf : config) (a : algorithm) : option profile :=
  match a with
  | Ec => if feat_p256 cf then Some P256Sha256 else if feat_p384 cf then Some P384Sha384 else None
  | Mldsa => if feat_mldsa cf then Some Mldsa87 else None
  end.

(** main.rs:19-33 [mod ec] and 188-211: the back end, and with it the type of the
    CertifyKey command (106-123); [None]: "Unsupported algorithm". *)
Definition tool_backend (cf : config) (a : algorithm) : option profile :=
  match a with
  | Ec => if feat_p384 cf then Some P384Sha384 else if feat_p256 cf then Some P256Sha256 else None
  | Mldsa => if feat_mldsa cf then Some Mldsa87 else None
  end.

(** main.rs:171-182: the support of the instance (dpe/src/support.rs:10-29). *)
Definition tool_support (cert : bool) : N :=
  let s := flag_set 0 31 true in
  let s := flag_set s 29 true in
  let s := flag_set s 26 cert in
  let s := flag_set s 25 (negb cert) in
  let s := flag_set s 30 true in
  let s := flag_set s 27 true in
  let s := flag_set s 21 true in
  let s := flag_set s 22 true in
  let s := flag_set s 19 true in
  flag_set s 18 true.

(** main.rs:229-244: the [i]-th DeriveContext; other fields are [Default]. *)
Definition tool_derive_flags (cert : bool) : N :=
  N.lor (N.lor (N.lor (bit 28) (bit 31)) (bit 30)) (if cert then bit 25 else 0).
Definition tool_derive (cf : config) (cert : bool) (i : nat) : command :=
  CmdDeriveContext
    {| dc_handle := repeat 0 handle_size; dc_data := repeat 0 (tci_size cf); dc_flags := tool_derive_flags cert;
       dc_tci_type := N.of_nat i + 1; dc_target_locality := 0; dc_svn := 0 |}.

(** main.rs:98-125 [send_certify_key]: the command. *)
Definition tool_certify (b : profile) (cert : bool) : command :=
  let k := {| ck_handle := repeat 0 handle_size; ck_flags := 0; ck_format := if cert then 0 else 1;
              ck_label := repeat 0 (profile_hash_size b) |} in
  CmdCertifyKey (match b with P256Sha256 => CertifyP256 k | P384Sha384 => CertifyP384 k | Mldsa87 => CertifyMldsa87 k end).

(** What a measurement ends with: a size (main.rs:127-131 [CertOrCsrSize]), one of the
    errors, or a panic. *)
Inductive measured :=
| Size (cert : bool) (n : N)
| BadCount
| Unsupported
| NoInstance (e : dpe_error)
| NoContext (i : nat) (e : dpe_error)
| NoKey (e : dpe_error)
| OtherResponse
| NoSlice
| ToolPanic.

(** The build with profile [p] for the instance. *)
Definition with_profile (p : profile) (cf : config) : config :=
  {| max_handles := max_handles cf; feat_p256 := feat_p256 cf; feat_p384 := feat_p384 cf; feat_mldsa := feat_mldsa cf;
     prof := p; fuel := fuel cf |}.

Section Measure.
  Variable R : Type.
  Variable pr : primitives R.
  Variables chain issuer serial ski : bytes.

  Section Run.
    Variable cf : config.
    Variable b : profile.
    Notation co := (rust_ops R pr (profile_alg b) (backend_digest b)).
    Notation po := (default_platform chain issuer serial ski).
    Notation world := (world (rust_c R) unit).
    Definition tool_execute (cmd : command) (w : world) : result response * world :=
      execute cf (rust_c R) unit co po (x509_gen cf (rust_c R) unit co po) cmd 0 w.

    (** main.rs:236-244: [k] more contexts, the next one being number [i]. *)
    Fixpoint tool_contexts (cert : bool) (k i : nat) (w : world) : measured + world :=
      match k with
      | O => inr w
      | S k =>
          match tool_execute (tool_derive cf cert i) w with
          | (Ok _, w') => tool_contexts cert k (S i) w'
          | (Err e, _) => inl (NoContext i e)
          | (Crash _, _) => inl ToolPanic
          end
      end.

    (** main.rs:246-260. *)
    Definition tool_measure_key (cert : bool) (w : world) : measured :=
      match tool_execute (tool_certify b cert) w with
      | (Ok (RespCertifyKey p h x pk n c), _) =>
          match response_cert (RespCertifyKey p h x pk n c) with
          | Ok l => Size cert (N.of_nat (length l))
          | _ => NoSlice
          end
      | (Ok _, _) => OtherResponse
      | (Err e, _) => NoKey e
      | (Crash _, _) => ToolPanic
      end.

    (** main.rs:218-261 [execute_and_measure], with the state of 184-185 and the new back
        end of 188-206. *)
    Definition execute_and_measure (n : nat) (cert : bool) (seed : R) : measured :=
      match dpe_new cf (rust_c R) unit co po (mkWorld (state_new cf (tool_support cert) 0) (rust_new R seed) tt []) with
      | (Ok _, w) =>
          match tool_contexts cert (n - 1) 0 w with
          | inr w' => tool_measure_key cert w'
          | inl m => m
          end
      | (Err e, _) => NoInstance e
      | (Crash _, _) => ToolPanic
      end.
  End Run.

  Variable cf : config.

  (** main.rs:160-213 [measure_cert_csr].  [seed]: the generator of a new back end. *)
  Definition measure_cert_csr (a : algorithm) (n : nat) (cert : bool) (seed : R) : measured :=
    if Nat.eqb n 0 || Nat.ltb (max_handles cf) n then BadCount
    else match tool_backend cf a with
         | None => Unsupported
         | Some b =>
             match tool_profile cf a with
             | None => ToolPanic
             | Some p => execute_and_measure (with_profile p cf) b n cert seed
             end
         end.

  (** benchmark.rs:174-178: the counts to sample. *)
  Definition handle_counts : list nat :=
    filter (fun n => Nat.leb n (max_handles cf)) [1; 2; 4; 8; 16; 24; 32; 48; 64]%nat.

  (** benchmark.rs:200-205: one certificate and one request for each count; the first
      error ends the sweep.  Counts and sizes are [usize]. *)
  Fixpoint sweep (a : algorithm) (seed : R) (ns : list nat) : measured + (list (N * N) * list (N * N)) :=
    match ns with
    | [] => inr ([], [])
    | n :: ns =>
        match measure_cert_csr a n true seed with
        | Size _ x =>
            match measure_cert_csr a n false seed with
            | Size _ y =>
                match sweep a seed ns with
                | inr (xs, ys) => inr ((N.of_nat n, x) :: xs, (N.of_nat n, y) :: ys)
                | inl m => inl m
                end
            | m => inl m
            end
        | m => inl m
        end
    end.
End Measure.

(** benchmark.rs:16-26 [LinearApprox]. *)
Record linear := { la_per : N; la_base : N; la_covers : bool; la_deficit : N; la_last : N * N * N }.

(** benchmark.rs:30-66 [from_sizes].  The subtractions of [usize] are guarded, products
    and sums are far from 2^64. *)
Definition from_sizes (l : list (N * N)) : option linear :=
  match l with
  | (x1, y1) :: (x2, y2) :: _ =>
      if N.leb x2 x1 || N.leb y2 y1 then None
      else
        let per := (y2 - y1) / (x2 - x1) in
        let base := y1 - per * x1 in
        let deficit := fold_left (fun m ns => let predicted := base + per * fst ns in
                                              if N.ltb predicted (snd ns) then N.max m (snd ns - predicted) else m) l 0 in
        let '(xn, yn) := last l (x1, y1) in
        Some {| la_per := per; la_base := base; la_covers := N.eqb deficit 0; la_deficit := deficit;
                la_last := (xn, base + per * xn, yn) |}
  | _ => None
  end.

(** benchmark.rs:103-111 [approx]: (base, per_handle). *)
Definition approx (certs csrs : list (N * N)) : option (N * N) :=
  match from_sizes certs, from_sizes csrs with
  | Some c, Some r =>
      let per := N.max (la_per c) (la_per r) in
      match csrs with
      | (x1, y1) :: _ => Some (y1 - per * x1, per)
      | [] => None
      end
  | _, _ => None
  end.

(** benchmark.rs:115-120 [verify]. *)
Definition verify (certs csrs : list (N * N)) (base per : N) : bool :=
  forallb (fun ns => N.leb (snd ns) (base + per * fst ns)) (certs ++ csrs).

(** benchmark.rs:173-216 [run] with the report of 123-170: the sizes, the suggested
    constants and whether they are called verified. *)
Inductive report :=
| TooFewHandles
| Stopped (m : measured)
| Report (certs csrs : list (N * N)) (use : option (N * N * bool)).
Definition benchmark_run {R} (pr : primitives R) (chain issuer serial ski : bytes) (cf : config) (a : algorithm) (seed : R) : report :=
  if Nat.ltb (length (handle_counts cf)) 2 then TooFewHandles
  else match sweep R pr chain issuer serial ski cf a seed (handle_counts cf) with
       | inl m => Stopped m
       | inr (certs, csrs) =>
           Report certs csrs
             (match approx certs csrs with
              | Some (base, per) => Some (base, per, verify certs csrs base per)
              | None => None
              end)
       end.
