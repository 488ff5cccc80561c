(** Contract.v -- what every command promises about the state, in the vocabulary
    of Spec.v.  Flag bits are those of the DPE specification
    (dpe/src/commands/*.rs, [bitflags!] declarations):
    InitializeContext 31 SIMULATION, 30 INITIALIZE_DEFAULT;
    DeriveContext 31 INTERNAL_INPUT_INFO, 30 INTERNAL_INPUT_DICE, 29 RETAIN_PARENT,
    28 MAKE_DEFAULT, 27 CHANGE_LOCALITY, 26 ALLOW_NEW_CONTEXT_TO_EXPORT,
    25 INPUT_ALLOW_X509, 24 RECURSIVE, 23 EXPORT_CDI, 22 CREATE_CERTIFICATE,
    21 ALLOW_RECURSIVE; RotateContextHandle 31 TARGET_IS_DEFAULT. *)
From Verif Require Import Base Errors Types Env Wire Commands Spec History.
Local Open Scope nat_scope.

Section Contract.
  Variable cf : config.
  Context {C : Type}.
  Variable co : crypto_ops C.

  (** RotateContextHandle: one handle changes. *)
  Definition rotate_spec (h : bytes) (f loc : N) (s s' : state) : Prop :=
    exists i c c',
      first_slot (names s h loc) i /\ at_slot s i c /\ supports s ROTATE_CONTEXT /\
      only_slots (eq i) s s' /\ at_slot s' i c' /\ same_but_handle c c' /\
      (N.testbit f 31 = true ->
         c_handle c' = repeat 0%N 16 /\ h <> repeat 0%N 16 /\
         forall j d, at_slot s j d -> c_state d = Active -> c_locality d = loc -> j = i) /\
      (N.testbit f 31 = false -> fresh_handle s (c_handle c')).

  (** Sign and CertifyKey: the handle of the addressed context is renewed. *)
  Definition rolled_only (h : bytes) (loc : N) (s s' : state) : Prop :=
    exists i c c', first_slot (names s h loc) i /\ at_slot s i c /\ only_slots (eq i) s s' /\
      at_slot s' i c' /\ same_but_handle c c' /\ refreshed s c (c_handle c').

  (** InitializeContext: one new root. *)
  Definition init_spec (f loc : N) (s s' : state) : Prop :=
    exists k h,
      first_slot (free_at s) k /\
      xorb (N.testbit f 30) (N.testbit f 31) = true /\
      (N.testbit f 30 = true -> st_init s = false /\ h = repeat 0%N 16) /\
      (N.testbit f 31 = true -> supports s SIMULATION /\ fresh_handle s h) /\
      (st_marker s' = st_marker s /\ st_version s' = st_version s /\ st_support s' = st_support s /\
       st_flags s' = st_flags s /\ st_reserved s' = st_reserved s /\
       st_init s' = (st_init s || N.testbit f 30)%bool) /\
      length (st_contexts s') = length (st_contexts s) /\
      (forall j, j <> k -> nth_error (st_contexts s') j = nth_error (st_contexts s) j) /\
      at_slot s' k
        {| c_handle := h;
           c_tci := mkTci 0 (repeat 0%N (tci_size cf)) (repeat 0%N (tci_size cf)) loc 0;
           c_children := 0; c_locality := loc; c_parent := ROOT;
           c_type := if N.testbit f 31 then Simulation else Normal;
           c_state := Active; c_info := false; c_dice := false;
           c_x509 := true; c_export := true; c_recursive := N.testbit f 30 |}.

  (** Conditions every successful DeriveContext meets: [p] is the parent. *)
  Definition derive_guard (d : derive_cmd) (loc : N) (s : state) (p : nat) (pc : context) : Prop :=
    first_slot (names s (dc_handle d) loc) p /\ at_slot s p pc /\
    ~ unsupported_option s (dc_flags d) /\
    (N.testbit (dc_flags d) 25 = true -> c_x509 pc = true) /\
    (N.testbit (dc_flags d) 24 = true ->
       c_recursive pc = true /\ N.testbit (dc_flags d) 29 = false /\
       N.testbit (dc_flags d) 21 = false /\ N.testbit (dc_flags d) 23 = false) /\
    (N.testbit (dc_flags d) 23 = true ->
       N.testbit (dc_flags d) 22 = true /\ N.testbit (dc_flags d) 27 = false /\
       c_type pc = Normal /\ c_export pc = true).

  (** DeriveContext with RECURSIVE: the context itself is extended. *)
  Definition recursive_spec (d : derive_cmd) (loc : N) (s s' : state) : Prop :=
    exists i c c', derive_guard d loc s i c /\ supports s RECURSIVE /\
      (N.testbit (dc_flags d) 27 = true -> dc_target_locality d = loc) /\
      tci_type (c_tci c) = dc_tci_type d /\
      only_slots (eq i) s s' /\ at_slot s' i c' /\ extended cf co (dc_data d) c c' /\
      refreshed s c (c_handle c').

  (** DeriveContext: one new child. *)
  Definition child_spec (d : derive_cmd) (loc : N) (s s' : state) : Prop :=
    let f := dc_flags d in
    let target := if N.testbit f 27 then dc_target_locality d else loc in
    exists p pc pc' k h dg,
      derive_guard d loc s p pc /\ first_slot (free_at s) k /\
      (forall i c, at_slot s i c -> child_of s p i -> tci_type (c_tci c) <> dc_tci_type d) /\
      only_slots (fun j => j = p \/ j = k) s s' /\
      hash_of co [repeat 0%N (tci_size cf); dc_data d] dg /\ length dg = tci_size cf /\
      (if N.testbit f 28 then h = repeat 0%N 16 else fresh_handle s h) /\
      at_slot s' k
        {| c_handle := h;
           c_tci := mkTci (dc_tci_type d) dg (dc_data d) target (dc_svn d);
           c_children := 0; c_locality := target; c_parent := p;
           c_type := c_type pc; c_state := Active;
           c_info := N.testbit f 31; c_dice := N.testbit f 30; c_x509 := N.testbit f 25;
           c_export := N.testbit f 26 && c_export pc;
           c_recursive := N.testbit f 21 && c_recursive pc |} /\
      at_slot s' p pc' /\
      same_identity pc pc' /\ c_tci pc' = c_tci pc /\
      (forall j, has_bit (c_children pc') j <-> has_bit (c_children pc) j \/ j = k) /\
      (if N.testbit f 29
       then c_state pc' = Active /\ refreshed s pc (c_handle pc')
       else c_state pc' = Retired /\ c_handle pc' = repeat 255%N 16).

  (** DeriveContext with EXPORT_CDI: no new context; the parent is kept, retired
      or removed. *)
  Definition export_spec (d : derive_cmd) (loc : N) (s s' : state) : Prop :=
    exists p pc,
      derive_guard d loc s p pc /\
      (forall i c, at_slot s i c -> child_of s p i -> tci_type (c_tci c) <> dc_tci_type d) /\
      (if N.testbit (dc_flags d) 29
       then exists pc', only_slots (eq p) s s' /\ at_slot s' p pc' /\
                        same_but_handle pc pc' /\ refreshed s pc (c_handle pc')
       else if N.eqb (c_children pc) 0
       then pruned cf s (doomed s p) s'
       else exists pc', only_slots (eq p) s s' /\ at_slot s' p pc' /\ c_state pc' = Retired /\
                        c_handle pc' = repeat 255%N 16 /\ c_children pc' = c_children pc /\
                        same_identity pc pc' /\ c_tci pc' = c_tci pc).

  (** UpdateContextMeasurement: first half (the parent's handle) ... *)
  Definition update_parent (u : update_cmd) (loc : N) (s s' : state) : Prop :=
    exists p pc pc',
      uc_parent_handle u <> repeat 0%N 16 /\
      first_slot (names s (uc_parent_handle u) loc) p /\ at_slot s p pc /\
      only_slots (eq p) s s' /\ at_slot s' p pc' /\ same_but_handle pc pc' /\
      fresh_handle s (c_handle pc').

  (** ... and the whole: an active child with the given type is extended. *)
  Definition update_spec (u : update_cmd) (loc : N) (s s' : state) : Prop :=
    exists p pc pc' i c c',
      uc_parent_handle u <> repeat 0%N 16 /\
      first_slot (names s (uc_parent_handle u) loc) p /\ at_slot s p pc /\
      at_slot s i c /\ child_of s p i /\ c_state c = Active /\
      tci_type (c_tci c) = uc_tci_type u /\ i <> p /\
      only_slots (fun j => j = p \/ j = i) s s' /\
      at_slot s' p pc' /\ same_but_handle pc pc' /\ fresh_handle s (c_handle pc') /\
      at_slot s' i c' /\ extended cf co (uc_data u) c c' /\
      (c_handle c = repeat 0%N 16 -> c_handle c' = repeat 0%N 16) /\
      (c_handle c <> repeat 0%N 16 ->
         c_handle c' <> repeat 0%N 16 /\ c_handle c' <> c_handle pc' /\
         forall j d, j <> p -> at_slot s j d -> c_handle d <> c_handle c').

  (** The effect of a command that was carried out completely. *)
  Definition effect (cmd : command) (loc : N) (s s' : state) : Prop :=
    match cmd with
    | CmdGetProfile | CmdGetCertificateChain _ _ => s' = s
    | CmdInitCtx f => init_spec f loc s s'
    | CmdDeriveContext d =>
        if N.testbit (dc_flags d) 24 then recursive_spec d loc s s'
        else if N.testbit (dc_flags d) 23 then export_spec d loc s s'
        else child_spec d loc s s'
    | CmdCertifyKey _ | CmdSign _ => exists h, presents cmd h /\ rolled_only h loc s s'
    | CmdRotateCtx h f => rotate_spec h f loc s s'
    | CmdDestroyCtx h => exists t, first_slot (names s h loc) t /\ pruned cf s (doomed s t) s'
    | CmdUpdateContextMeasurement u => update_spec u loc s s'
    end.
End Contract.

(** ** Responses *)

(** [n] bytes at offset [o]. *)
Definition slice (b : bytes) (o n : nat) : bytes := firstn n (skipn o b).

(** "DPER", status 0, the profile: the header of every successful response. *)
Definition success_header (cf : config) (out : bytes) : Prop :=
  slice out 0 12 = le_bytes 4 0x44504552 ++ le_bytes 4 0 ++
                   le_bytes 4 (match prof cf with P256Sha256 => 3 | P384Sha384 => 4 | Mldsa87 => 5 end).

(** The handles a response reports are those now stored: [n] is the returned
    size, [out'] the response buffer afterwards. *)
Definition reported (cmd : command) (loc : N) (s s' : state) (out' : bytes) (n : N) : Prop :=
  match cmd with
  | CmdInitCtx _ =>
      n = 28%N /\ exists k c, first_slot (free_at s) k /\ at_slot s' k c /\ slice out' 12 16 = c_handle c
  | CmdRotateCtx h _ =>
      n = 28%N /\ exists i c, first_slot (names s h loc) i /\ at_slot s' i c /\ slice out' 12 16 = c_handle c
  | CmdSign _ | CmdCertifyKey _ =>
      (28 <= n)%N /\ exists h i c, presents cmd h /\ first_slot (names s h loc) i /\ at_slot s' i c /\
                                   slice out' 12 16 = c_handle c
  | CmdDestroyCtx _ => n = 12%N
  | CmdDeriveContext d =>
      exists p pc, first_slot (names s (dc_handle d) loc) p /\ at_slot s' p pc /\
      if N.testbit (dc_flags d) 24 then
        n = 44%N /\ slice out' 12 16 = c_handle pc /\ slice out' 28 16 = repeat 0%N 16
      else if N.testbit (dc_flags d) 23 then
        (80 <= n)%N /\ slice out' 12 16 = repeat 255%N 16 /\ slice out' 28 16 = c_handle pc
      else
        n = 44%N /\ slice out' 28 16 = c_handle pc /\
        exists k c, first_slot (free_at s) k /\ at_slot s' k c /\ slice out' 12 16 = c_handle c
  | CmdUpdateContextMeasurement u =>
      n = 44%N /\ exists p pc i c, first_slot (names s (uc_parent_handle u) loc) p /\ at_slot s' p pc /\
        child_of s p i /\ i <> p /\ at_slot s' i c /\ tci_type (c_tci c) = uc_tci_type u /\ c_state c = Active /\
        slice out' 12 16 = c_handle c /\ slice out' 28 16 = c_handle pc
  | CmdGetProfile => n = 32%N
  | CmdGetCertificateChain _ _ => n = 2064%N
  end.

(** Space the fixed part of the response takes. *)
Definition fixed_size (cf : config) (cmd : command) : nat :=
  match cmd with
  | CmdGetProfile => 32
  | CmdInitCtx _ | CmdRotateCtx _ _ => 28
  | CmdDestroyCtx _ => 12
  | CmdUpdateContextMeasurement _ => 44
  | CmdDeriveContext d => if N.testbit (dc_flags d) 23 then 80 else 44
  | CmdSign _ => 28 + (if feat_mldsa cf then 4628 else if feat_p384 cf then 96 else 64)
  | CmdCertifyKey (CertifyP256 _) => 96
  | CmdCertifyKey (CertifyP384 _) => 128
  | CmdCertifyKey (CertifyMldsa87 _) => 2624
  | CmdGetCertificateChain _ _ => 2064
  end.

(** Commands whose response holds a certificate or CSR behind the fixed part. *)
Definition writes_certificate (cmd : command) : Prop :=
  match cmd with
  | CmdCertifyKey _ => True
  | CmdDeriveContext d => N.testbit (dc_flags d) 22 = true /\ N.testbit (dc_flags d) 23 = true
  | _ => False
  end.

(** The certificate writer does not resize the buffer it is given. *)
Definition keeps_size {C P : Type}
  (cg : cert_kind -> cert_args -> nat -> state -> C -> P -> bytes -> result cert_result * C * P * bytes) : Prop :=
  forall k a off s c p out r c' p' out', cg k a off s c p out = (r, c', p', out') -> length out' = length out.
