(** History.v -- everything that can happen to a DPE: arbitrary sequences of
    commands, from arbitrary localities, with arbitrary and changing
    environments. *)
From Verif Require Import Base Errors Types Env Wire Commands Spec.
Local Open Scope nat_scope.

(** The commands a caller can pass: fixed-size byte arrays and 32-bit words. *)
Definition certify_wf (lbl : nat) (c : certify_cmd) : Prop :=
  byte_string 16 (ck_handle c) /\ u32 (ck_flags c) /\ u32 (ck_format c) /\
  byte_string lbl (ck_label c).
Definition sign_wf (lbl dig : nat) (c : sign_cmd) : Prop :=
  byte_string 16 (sg_handle c) /\ byte_string lbl (sg_label c) /\ u32 (sg_flags c) /\
  byte_string dig (sg_digest c).
Definition command_wf (cf : config) (c : command) : Prop :=
  match c with
  | CmdGetProfile => True
  | CmdInitCtx f => u32 f
  | CmdDeriveContext d =>
      byte_string 16 (dc_handle d) /\ byte_string (tci_size cf) (dc_data d) /\
      u32 (dc_flags d) /\ u32 (dc_tci_type d) /\ u32 (dc_target_locality d) /\ u32 (dc_svn d)
  | CmdCertifyKey (CertifyP256 c) => certify_wf 32 c
  | CmdCertifyKey (CertifyP384 c) | CmdCertifyKey (CertifyMldsa87 c) => certify_wf 48 c
  | CmdSign (SignP256 c) => sign_wf 32 32 c
  | CmdSign (SignP384 c) => sign_wf 48 48 c
  | CmdSign (SignMldsa87 c) => sign_wf 48 64 c
  | CmdSign (SignMldsa87Raw c) =>
      byte_string 16 (sr_handle c) /\ byte_string 48 (sr_label c) /\ u32 (sr_flags c) /\
      u32 (sr_size c) /\ byte_string mldsa87_raw_max (sr_raw c)
  | CmdRotateCtx h f => byte_string 16 h /\ u32 f
  | CmdDestroyCtx h => byte_string 16 h
  | CmdGetCertificateChain o s => u32 o /\ u32 s
  | CmdUpdateContextMeasurement u =>
      byte_string 16 (uc_parent_handle u) /\ byte_string (tci_size cf) (uc_data u) /\
      u32 (uc_reserved u) /\ u32 (uc_tci_type u) /\ u32 (uc_reserved_svn u)
  end.

(** The environment of one step. *)
Record env := {
  e_C : Type;
  e_P : Type;
  e_crypto : crypto_ops e_C;
  e_platform : platform_ops e_P;
  e_cert : cert_kind -> cert_args -> nat -> state -> e_C -> e_P -> bytes ->
           result cert_result * e_C * e_P * bytes
}.

(** One command: executed in environment [e] it leads from state [s] to state
    [s'] with result [r]; crypto and platform state and the response buffer may
    be anything before and after. *)
Definition executes (cf : config) (e : env) (cmd : command) (loc : N)
           (s : state) (r : result N) (s' : state) : Prop :=
  exists c p out c' p' out',
    exec_command cf (e_C e) (e_P e) (e_crypto e) (e_platform e) (e_cert e) cmd loc
                 (mkWorld s c p out) = (r, mkWorld s' c' p' out').

(** Creating an instance over a state ([DpeInstance::new]). *)
Definition creates (cf : config) (e : env) (s : state) (r : result unit) (s' : state) : Prop :=
  exists c p out c' p' out',
    dpe_new cf (e_C e) (e_P e) (e_crypto e) (e_platform e)
            (mkWorld s c p out) = (r, mkWorld s' c' p' out').

(** Creating an auto-initialised, already measured instance
    ([DpeInstance::new_auto_init]). *)
Definition creates_measured (cf : config) (e : env) (ty : N) (m : bytes) (s : state)
           (r : result unit) (s' : state) : Prop :=
  exists c p out c' p' out',
    dpe_new_auto_init cf (e_C e) (e_P e) (e_crypto e) (e_platform e) ty m
                      (mkWorld s c p out) = (r, mkWorld s' c' p' out').

Inductive event :=
| EvNew (r : result unit)
| EvNewMeasured (ty : N) (m : bytes) (r : result unit)
| EvCommand (cmd : command) (loc : N) (r : result N).

(** [history cf E G l s]: state [s] is reached from a new state by the events
    [l] (latest first).  [E] restricts the environments, [G] the commands
    (given the state they are issued in); both are [any_*] for unrestricted
    histories. *)
Inductive history (cf : config) (E : env -> Prop) (G : state -> command -> N -> Prop)
  : list event -> state -> Prop :=
| hi_new sup fl : u32 sup -> history cf E G [] (state_new cf sup fl)
| hi_create l s e r s' :
    history cf E G l s -> E e -> creates cf e s r s' ->
    (forall loc, G s (CmdInitCtx (2 ^ 30)) loc) ->
    history cf E G (EvNew r :: l) s'
| hi_measured sup fl e ty m r s' :
    E e -> u32 sup -> u32 ty -> byte_string (tci_size cf) m ->
    creates_measured cf e ty m (state_new cf sup fl) r s' ->
    history cf E G [EvNewMeasured ty m r] s'
| hi_command l s e cmd loc r s' :
    history cf E G l s -> E e -> command_wf cf cmd -> u32 loc -> G s cmd loc ->
    executes cf e cmd loc s r s' ->
    history cf E G (EvCommand cmd loc r :: l) s'.

Definition any_env (e : env) : Prop := True.
Definition any_command (s : state) (cmd : command) (loc : N) : Prop := True.

(** Reachable without any restriction. *)
Definition reachable (cf : config) (s : state) : Prop :=
  exists l, history cf any_env any_command l s.

(** ** Vocabulary about commands *)

(** The handle a command presents. *)
Definition presents (cmd : command) (h : bytes) : Prop :=
  match cmd with
  | CmdDeriveContext d => h = dc_handle d
  | CmdCertifyKey (CertifyP256 c) | CmdCertifyKey (CertifyP384 c)
  | CmdCertifyKey (CertifyMldsa87 c) => h = ck_handle c
  | CmdSign (SignP256 c) | CmdSign (SignP384 c) | CmdSign (SignMldsa87 c) => h = sg_handle c
  | CmdSign (SignMldsa87Raw c) => h = sr_handle c
  | CmdRotateCtx h' _ => h = h'
  | CmdDestroyCtx h' => h = h'
  | CmdUpdateContextMeasurement u => h = uc_parent_handle u
  | CmdGetProfile | CmdInitCtx _ | CmdGetCertificateChain _ _ => False
  end.

(** The answer to a handle the caller does not own. *)
Definition denied (s : state) (loc : N) (er : dpe_error) : Prop :=
  (er = InvalidLocality /\
   forall i c, at_slot s i c -> c_state c = Active -> c_locality c <> loc) \/
  (er = InvalidHandle /\
   exists i c, at_slot s i c /\ c_state c = Active /\ c_locality c = loc).

(** A DeriveContext flag word asks for a feature the instance lacks. *)
Definition unsupported_option (s : state) (f : N) : Prop :=
  (N.testbit f 31 = true /\ ~ supports s INTERNAL_INFO) \/
  (N.testbit f 30 = true /\ ~ supports s INTERNAL_DICE) \/
  (N.testbit f 29 = true /\ ~ supports s RETAIN_PARENT_CONTEXT) \/
  (N.testbit f 25 = true /\ ~ supports s X509) \/
  ((N.testbit f 22 = true \/ N.testbit f 23 = true) /\ ~ supports s CDI_EXPORT) \/
  (N.testbit f 24 = true /\ ~ supports s RECURSIVE).

(** Errors that a command reports before it looks at its handle. *)
Definition early (s : state) (cmd : command) (er : dpe_error) : Prop :=
  match cmd with
  | CmdDeriveContext d => er = ArgumentNotSupported /\ unsupported_option s (dc_flags d)
  | CmdRotateCtx _ _ => er = InvalidCommand /\ ~ supports s ROTATE_CONTEXT
  | CmdSign (SignMldsa87Raw c) => er = InvalidArgument /\ (N.of_nat (length (sr_raw c)) < sr_size c)%N
  | CmdUpdateContextMeasurement u => er = InvalidArgument /\ uc_parent_handle u = repeat 0%N 16
  | _ => False
  end.

(** Does the event initialise the default tree successfully? *)
Definition initialises (sup : N) (ev : event) : bool :=
  match ev with
  | EvCommand (CmdInitCtx f) _ (Ok _) => N.testbit f 30
  | EvNew (Ok _) => N.testbit sup AUTO_INIT
  | EvNewMeasured _ _ (Ok _) => true
  | _ => false
  end.

(** Requests that DeriveContext must refuse for the context [pc] in slot [p]. *)
Definition bad_request (s : state) (d : derive_cmd) (p : nat) (pc : context) : Prop :=
  let f := dc_flags d in
  (N.testbit f 25 = true /\ c_x509 pc = false) \/
  (N.testbit f 24 = true /\ (c_recursive pc = false \/ N.testbit f 29 = true \/
                             N.testbit f 21 = true \/ N.testbit f 23 = true)) \/
  (N.testbit f 23 = true /\ (N.testbit f 22 = false \/ N.testbit f 27 = true \/
                             c_type pc = Simulation \/ c_export pc = false)) \/
  (N.testbit f 24 = false /\ exists i c, at_slot s i c /\ child_of s p i /\ tci_type (c_tci c) = dc_tci_type d).
