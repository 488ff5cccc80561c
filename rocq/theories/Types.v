(** Types.v -- build configuration, support and command flags, TCI nodes,
    contexts and the persistent DPE state. *)
From Verif Require Import Base Errors.
Open Scope N_scope.

(** ** Build configuration *)

(** dpe/src/lib.rs:92-100 [DpeProfile]. *)
Inductive profile := P256Sha256 | P384Sha384 | Mldsa87.

(** dpe/src/lib.rs:147-151: the numeric profile id. *)
Definition profile_id (p : profile) : N :=
  match p with P256Sha256 => 3 | P384Sha384 => 4 | Mldsa87 => 5 end.

(** dpe/src/lib.rs:103-118 [tci_size] / [hash_size] / [ecc_int_size]. *)
Definition profile_hash_size (p : profile) : nat :=
  match p with P256Sha256 => 32%nat | _ => 48%nat end.

(** dpe/src/lib.rs:135-144 [key_context]: "ECC" / "MLDSA". *)
Definition key_context (p : profile) : bytes :=
  match p with
  | P256Sha256 | P384Sha384 => [69; 67; 67]
  | Mldsa87 => [77; 76; 68; 83; 65]
  end.

(** What is fixed when the crate is built and the instance created:
    MAX_HANDLES (dpe/build.rs), the enabled crypto features, the instance's
    profile, and -- not part of the code -- the number of iterations the model
    grants to each potentially unbounded loop before declaring [CrashFuel]. *)
Record config := {
  max_handles : nat;
  feat_p256 : bool;
  feat_p384 : bool;
  feat_mldsa : bool;
  prof : profile;
  fuel : nat
}.

Definition profile_enabled (cf : config) : bool :=
  match prof cf with
  | P256Sha256 => feat_p256 cf
  | P384Sha384 => feat_p384 cf
  | Mldsa87 => feat_mldsa cf
  end.

(** dpe/src/lib.rs:153-157 [TCI_SIZE]. *)
Definition tci_size (cf : config) : nat :=
  if feat_p384 cf || feat_mldsa cf then 48%nat else 32%nat.

(** dpe/build.rs (main): MAX_CERT_SIZE = (base + per_handle * MAX_HANDLES)
    rounded up to a multiple of 4. *)
Definition max_cert_size (cf : config) : N :=
  let '(base, per) :=
    if feat_mldsa cf then (12307, 158)
    else if feat_p256 cf then (643, 126) else (756, 159) in
  4 * ((base + per * N.of_nat (max_handles cf) + 3) / 4).

(** Legal configurations: 1..64 handles (compile-time assertion at
    dpe/src/context.rs:55-58 and the [assert!] at dpe/src/dpe_instance.rs:406),
    the instance's profile is compiled in, and the model's loops get more fuel
    than there are slots. *)
Definition config_ok (cf : config) : Prop :=
  (1 <= max_handles cf <= 64)%nat /\ profile_enabled cf = true /\
  (max_handles cf < fuel cf)%nat.

(** ** Flags *)

(** bitflags [contains]: all bits of [mask] are set. *)
Definition contains (v mask : N) : bool := N.eqb (N.land v mask) mask.

Definition bit (i : N) : N := N.shiftl 1 i.

(** dpe/src/support.rs:10-23 and accessors 25-55. *)
Definition sup_simulation (s : N) := contains s (bit 31).
Definition sup_recursive (s : N) := contains s (bit 30).
Definition sup_auto_init (s : N) := contains s (bit 29).
Definition sup_rotate (s : N) := contains s (bit 27).
Definition sup_x509 (s : N) := contains s (bit 26).
Definition sup_csr (s : N) := contains s (bit 25).
Definition sup_internal_info (s : N) := contains s (bit 22).
Definition sup_internal_dice (s : N) := contains s (bit 21).
Definition sup_retain_parent (s : N) := contains s (bit 19).
Definition sup_cdi_export (s : N) := contains s (bit 18).

(** dpe/src/support.rs:58-102 [preprocess_support] with none of the
    disable_* features (the default build): the identity. *)
Definition preprocess_support (s : N) : N := s.

(** dpe/src/state.rs:14-22 [DpeFlags::MARK_DICE_EXTENSIONS_CRITICAL]. *)
Definition flag_dice_critical (f : N) := contains f (bit 15).

(** dpe/src/commands/derive_context.rs:28-91 [DeriveContextFlags]. *)
Definition df_internal_info (f : N) := contains f (bit 31).
Definition df_internal_dice (f : N) := contains f (bit 30).
Definition df_retain_parent (f : N) := contains f (bit 29).
Definition df_make_default (f : N) := contains f (bit 28).
Definition df_change_locality (f : N) := contains f (bit 27).
Definition df_allow_export (f : N) := contains f (bit 26).
Definition df_allow_x509 (f : N) := contains f (bit 25).
Definition df_recursive (f : N) := contains f (bit 24).
Definition df_export_cdi (f : N) := contains f (bit 23).
Definition df_create_cert (f : N) := contains f (bit 22).
Definition df_allow_recursive (f : N) := contains f (bit 21).

(** dpe/src/commands/initialize_context.rs:30-48 [InitCtxCmd]. *)
Definition if_simulation (f : N) := contains f (bit 31).
Definition if_default (f : N) := contains f (bit 30).

(** dpe/src/commands/rotate_context.rs:30-56 [RotateCtxFlags]. *)
Definition rf_target_default (f : N) := contains f (bit 31).

(** dpe/src/commands/sign.rs:27-31 [SignFlags::IS_RAW]. *)
Definition sf_is_raw (f : N) := contains f (bit 0).

(** ** Handles *)

(** dpe/src/context.rs:187-200 [ContextHandle]. *)
Definition handle_size : nat := 16%nat.
Definition default_handle : bytes := repeat 0 handle_size.
Definition invalid_handle : bytes := repeat 255 handle_size.

(** dpe/src/context.rs:203-217 [is_default], [equals]. *)
Definition handle_eqb (a b : bytes) : bool := bytes_eqb a b.
Definition handle_is_default (h : bytes) : bool := handle_eqb h default_handle.

(** ** TCI nodes *)

(** dpe/src/tci.rs:10-16 [TciNodeData]. *)
Record tci := mkTci {
  tci_type : N;
  tci_cumulative : bytes;
  tci_current : bytes;
  tci_locality : N;
  tci_svn : N
}.

(** dpe/src/tci.rs:19-27 [TciNodeData::new] (and the derived Default). *)
Definition tci_new (cf : config) : tci :=
  mkTci 0 (repeat 0 (tci_size cf)) (repeat 0 (tci_size cf)) 0 0.

(** The derived [IntoBytes] layout of dpe/src/tci.rs:10-16. *)
Definition tci_bytes (t : tci) : bytes :=
  le_bytes 4 (tci_type t) ++ tci_cumulative t ++ tci_current t
  ++ le_bytes 4 (tci_locality t) ++ le_bytes 4 (tci_svn t).

(** Derived [PartialEq] of dpe/src/tci.rs:7-9. *)
Definition tci_eqb (a b : tci) : bool :=
  N.eqb (tci_type a) (tci_type b) &&
  bytes_eqb (tci_cumulative a) (tci_cumulative b) &&
  bytes_eqb (tci_current a) (tci_current b) &&
  N.eqb (tci_locality a) (tci_locality b) && N.eqb (tci_svn a) (tci_svn b).

(** ** Contexts *)

(** dpe/src/context.rs:305-330. *)
Inductive ctx_state := Inactive | Active | Retired.
Inductive ctx_type := Normal | Simulation.

Definition ctx_state_eqb (a b : ctx_state) : bool :=
  match a, b with
  | Inactive, Inactive | Active, Active | Retired, Retired => true
  | _, _ => false
  end.

Definition ctx_type_eqb (a b : ctx_type) : bool :=
  match a, b with
  | Normal, Normal | Simulation, Simulation => true
  | _, _ => false
  end.

(** dpe/src/context.rs:24-52 [Context].  [U8Bool] fields (dpe/src/lib.rs:68-86)
    are modelled by [bool]: only their zero/non-zero status is ever read.  The
    u8 [parent_idx] is a [nat], the U64 child bitmap an [N]. *)
Record context := mkCtx {
  c_handle : bytes;
  c_tci : tci;
  c_children : N;
  c_locality : N;
  c_parent : nat;
  c_type : ctx_type;
  c_state : ctx_state;
  c_info : bool;       (* uses_internal_input_info *)
  c_dice : bool;       (* uses_internal_input_dice *)
  c_x509 : bool;       (* allow_x509 *)
  c_export : bool;     (* allow_export_cdi *)
  c_recursive : bool   (* allow_recursive *)
}.

(** dpe/src/context.rs:80 [Context::ROOT_INDEX]. *)
Definition ROOT : nat := 255%nat.

(** dpe/src/context.rs:82-99 [Context::new]. *)
Definition ctx_new (cf : config) : context :=
  mkCtx default_handle (tci_new cf) 0 0 ROOT Normal Inactive
        false false false true false.

(** dpe/src/context.rs:332-345 [ActiveContextArgs]. *)
Record activate_args := {
  aa_type : ctx_type;
  aa_locality : N;
  aa_handle : bytes;
  aa_tci_type : N;
  aa_parent : nat;
  aa_x509 : bool;
  aa_info : bool;
  aa_dice : bool;
  aa_export : bool;
  aa_svn : N;
  aa_recursive : bool
}.

(** dpe/src/context.rs:121-137 [Context::activate].  Every field of the old
    context is overwritten. *)
Definition ctx_activate (cf : config) (old : context) (a : activate_args) : context :=
  let t := tci_new cf in
  let t := mkTci (aa_tci_type a) (tci_cumulative t) (tci_current t)
                 (aa_locality a) (aa_svn a) in
  mkCtx (aa_handle a) t 0 (aa_locality a) (aa_parent a) (aa_type a) Active
        (aa_info a) (aa_dice a) (aa_x509 a) (aa_export a) (aa_recursive a).

(** dpe/src/context.rs:141-152 [Context::destroy].  [context_type] and
    [allow_export_cdi] keep their old values. *)
Definition ctx_destroy (cf : config) (c : context) : context :=
  mkCtx invalid_handle (tci_new cf) 0 0 ROOT (c_type c) Inactive
        false false false (c_export c) false.

(** Single-field assignments [context.f = v]. *)
Definition set_handle (h : bytes) (c : context) : context :=
  mkCtx h (c_tci c) (c_children c) (c_locality c) (c_parent c) (c_type c)
        (c_state c) (c_info c) (c_dice c) (c_x509 c) (c_export c) (c_recursive c).
Definition set_tci (t : tci) (c : context) : context :=
  mkCtx (c_handle c) t (c_children c) (c_locality c) (c_parent c) (c_type c)
        (c_state c) (c_info c) (c_dice c) (c_x509 c) (c_export c) (c_recursive c).
Definition set_children (ch : N) (c : context) : context :=
  mkCtx (c_handle c) (c_tci c) ch (c_locality c) (c_parent c) (c_type c)
        (c_state c) (c_info c) (c_dice c) (c_x509 c) (c_export c) (c_recursive c).
Definition set_state (s : ctx_state) (c : context) : context :=
  mkCtx (c_handle c) (c_tci c) (c_children c) (c_locality c) (c_parent c) (c_type c)
        s (c_info c) (c_dice c) (c_x509 c) (c_export c) (c_recursive c).

(** ** State *)

(** dpe/src/state.rs:26-40 [State]. *)
Record state := mkState {
  st_marker : N;
  st_version : N;
  st_contexts : list context;   (* [Context; MAX_HANDLES] *)
  st_support : N;
  st_flags : N;
  st_init : bool;               (* has_initialized *)
  st_reserved : N
}.

(** dpe/src/state.rs:59-60: MAGIC = u32::from_be_bytes("DPES"), VERSION = 1. *)
Definition state_magic : N := 0x44504553.
Definition state_version : N := 1.

(** dpe/src/state.rs:62-74 [State::new]. *)
Definition state_new (cf : config) (support flags : N) : state :=
  mkState state_magic state_version
          (repeat (ctx_new cf) (max_handles cf))
          (preprocess_support support) flags false 0.

Definition set_contexts (l : list context) (s : state) : state :=
  mkState (st_marker s) (st_version s) l (st_support s) (st_flags s)
          (st_init s) (st_reserved s).
Definition set_init (b : bool) (s : state) : state :=
  mkState (st_marker s) (st_version s) (st_contexts s) (st_support s)
          (st_flags s) b (st_reserved s).

(** [state.contexts.get(i)] *)
Definition get_ctx (s : state) (i : nat) : option context :=
  nth_error (st_contexts s) i.

(** [state.contexts[i] = c] (range checked by the callers). *)
Definition put_ctx (s : state) (i : nat) (c : context) : state :=
  set_contexts (upd (st_contexts s) i c) s.
