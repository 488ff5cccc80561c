(** Reasons.v -- why a command may be refused: for every command the complete
    list of errors it may answer, each with the circumstances that justify it,
    in the vocabulary of Spec.v. *)
From Verif Require Import Base Errors Types Env Wire Commands Spec History Contract Measure.
Local Open Scope nat_scope.

Section Reasons.
  Variable cf : config.
  Context {C P : Type}.
  Variable co : crypto_ops C.
  Variable po : platform_ops P.
  Variable cg : cert_kind -> cert_args -> nat -> state -> C -> P -> bytes ->
                result cert_result * C * P * bytes.

  (** ** Faults of the environment: some call really answered with the error. *)

  (** The random source failed. *)
  Definition rand_fault (e : crypto_error) : Prop :=
    exists c c', co_rand_bytes co 16 c = (inr e, c').
  (** The hasher failed. *)
  Definition hash_fault (e : crypto_error) : Prop :=
    (exists c c', co_hasher co c = (inr e, c')) \/
    (exists c c', co_hash_initialize co c = (inr e, c')) \/
    (exists b c c', co_hash_update co b c = (inr e, c')) \/
    (exists c c', co_hash_finish co c = (inr e, c')).
  (** Deriving or using the key failed. *)
  Definition key_fault (e : crypto_error) : Prop :=
    (exists d i c c', co_derive_cdi co d i c = (inr e, c')) \/
    (exists l i c c', co_derive_key_pair co l i c = (inr e, c')) \/
    (exists d c c', co_signer_sign co d c = (inr e, c')).
  (** The platform did not tell its vendor. *)
  Definition vendor_fault (e : platform_error) : Prop :=
    (exists p p', po_vendor_id po p = (inr e, p')) \/ (exists p p', po_vendor_sku po p = (inr e, p')).
  (** The platform has no usable UEID. *)
  Definition ueid_fault (e : platform_error) : Prop :=
    (exists p p', po_ueid po p = (inr e, p')) \/
    (e = PEInvalidUeid /\ exists u p p', po_ueid po p = (inl u, p') /\ (48 < ueid_size u)%N).

  (** [n] consecutive draws from [c] on were the default handle or in use. *)
  Inductive unlucky (s : state) : nat -> C -> Prop :=
  | ul_zero c : unlucky s 0 c
  | ul_draw n c b c' :
      co_rand_bytes co 16 c = (inl b, c') ->
      (to_buf 16 b = repeat 0%N 16 \/ exists i x, at_slot s i x /\ c_handle x = to_buf 16 b) ->
      unlucky s n c' -> unlucky s (S n) c.

  (** No new handle could be generated in state [s]. *)
  Definition no_handle (s : state) (e : dpe_error) : Prop :=
    (exists ce, e = CryptoErr ce /\ rand_fault ce) \/
    (e = InternalError HandleGenerationExhausted /\ exists c, unlucky s 8 c).
  (** A measurement could not be extended. *)
  Definition no_extension (e : dpe_error) : Prop :=
    (exists ce, e = CryptoErr ce /\ hash_fault ce) \/
    (e = InternalError DigestLengthMismatch /\ exists l d, hash_of co l d /\ length d <> tci_size cf).
  (** The measurements of the chain from [i] could not be hashed. *)
  Definition no_measurement (s : state) (i : nat) (e : dpe_error) : Prop :=
    (exists ce, e = CryptoErr ce /\ hash_fault ce) \/
    (exists pe, e = PlatformErr pe /\ vendor_fault pe /\
       exists j c, below s j i /\ at_slot s j c /\ c_info c = true) \/
    (e = InternalError CertChainChunkSliceOob /\
       (exists j c, below s j i /\ at_slot s j c /\ c_dice c = true) /\
       exists o b p n b' p', po_certificate_chain po o 2048 b p = (inl n, b', p') /\ (2048 < n mod 2 ^ 32)%N).

  (** The handle is not the caller's. *)
  Definition not_yours (s : state) (h : bytes) (loc : N) (e : dpe_error) : Prop :=
    (forall i, ~ names s h loc i) /\ denied s loc e.

  (** No slot is left. *)
  Definition full (s : state) : Prop := forall i c, at_slot s i c -> live c.

  (** A new child in [target] would break the rules about default contexts. *)
  Definition unsafe_child (d : derive_cmd) (target : N) (s : state) (p : nat) : Prop :=
    let f := dc_flags d in
    if N.testbit f 28 then
      exists i c, at_slot s i c /\ c_state c = Active /\ c_locality c = target /\
        (i <> p \/ c_handle c <> repeat 0%N 16 \/ N.testbit f 29 = true)
    else
      exists i, first_slot (names s (repeat 0%N 16) target) i /\ (i <> p \/ N.testbit f 29 = true).

  (** ** The complete list of refusals.  [s] is the state before the command,
      [s'] the state left behind, [room] the size of the response buffer. *)
  Definition refusal (cmd : command) (loc : N) (s s' : state) (room : nat) (e : dpe_error) : Prop :=
    (e = InvalidResponseBuf /\ room < fixed_size cf cmd) \/
    match cmd with
    | CmdGetProfile => exists pe, e = PlatformErr pe /\ vendor_fault pe
    | CmdInitCtx f =>
        (e = ArgumentNotSupported /\
          ((N.testbit f 30 = true /\ st_init s = true) \/ (N.testbit f 31 = true /\ ~ supports s SIMULATION))) \/
        (e = InvalidArgument /\ N.testbit f 30 = N.testbit f 31) \/
        (e = MaxTcis /\ full s) \/
        (N.testbit f 31 = true /\ no_handle s' e)
    | CmdRotateCtx h f =>
        (e = InvalidCommand /\ ~ supports s ROTATE_CONTEXT) \/
        not_yours s h loc e \/
        (e = InvalidArgument /\ N.testbit f 31 = true /\
          exists t i c, first_slot (names s h loc) t /\ at_slot s i c /\ c_state c = Active /\
            c_locality c = loc /\ (c_handle c = repeat 0%N 16 \/ i <> t)) \/
        (N.testbit f 31 = false /\ no_handle s' e)
    | CmdDestroyCtx h => not_yours s h loc e
    | CmdGetCertificateChain off size =>
        (e = InvalidArgument /\ (2048 < size)%N) \/
        ((size <= 2048)%N /\ exists pe p b' p', e = PlatformErr pe /\ po_certificate_chain po off size (repeat 0%N 2048) p = (inr pe, b', p'))
    | CmdSign c =>
        (e = InvalidArgument /\ exists r, c = SignMldsa87Raw r /\ (N.of_nat (length (sr_raw r)) < sr_size r)%N) \/
        exists h, presents cmd h /\
          (not_yours s h loc e \/
           exists i x, first_slot (names s h loc) i /\ at_slot s i x /\
             ((e = InvalidArgument /\ c_type x = Simulation) \/
              no_measurement s i e \/
              (exists ce, e = CryptoErr ce /\ key_fault ce) \/
              (e = InvalidArgument /\ exists d b sg b', co_signer_sign co d b = (inl sg, b') /\
                 match sg with
                 | SigEcdsa256 _ _ => feat_p256 cf = false
                 | SigEcdsa384 _ _ => feat_p384 cf = false
                 | SigMldsa _ => feat_mldsa cf = false
                 end) \/
              (c_handle x <> repeat 0%N 16 /\ no_handle s' e)))
    | CmdCertifyKey c =>
        exists k h, c = k h /\ (k = CertifyP256 \/ k = CertifyP384 \/ k = CertifyMldsa87) /\
          (not_yours s (ck_handle h) loc e \/
           exists i x, first_slot (names s (ck_handle h) loc) i /\ at_slot s i x /\
             ((e = ArgumentNotSupported /\ ((ck_format h = 0%N /\ ~ supports s X509) \/
                                            (ck_format h = 1%N /\ ~ supports s CSR))) \/
              (e = InvalidArgument /\ ((ck_format h = 0%N /\ c_x509 x = false) \/ (1 < ck_format h)%N)) \/
              (exists a b p out c' p' out', length out = room /\ (ck_format h <= 1)%N /\
                 ca_handle a = ck_handle h /\ ca_locality a = loc /\ ca_ueid a = ck_label h /\
                 cg (if (ck_format h =? 0)%N then KindX509 else KindCsr) a (fixed_size cf cmd) s b p out
                 = (Err e, c', p', out')) \/
              (c_handle x <> repeat 0%N 16 /\ no_handle s' e) \/
              (e = InvalidArgument /\ exists kd a b p out cr c' p' out',
                 cg kd a (fixed_size cf cmd) s b p out = (Ok cr, c', p', out') /\
                 match c, cr_pubkey cr with
                 | CertifyP256 _, PkEcdsa256 _ _ | CertifyP384 _, PkEcdsa384 _ _
                 | CertifyMldsa87 _, PkMldsa _ => False
                 | _, _ => True
                 end)))
    | CmdDeriveContext d =>
        let f := dc_flags d in
        let target := if N.testbit f 27 then dc_target_locality d else loc in
        (e = ArgumentNotSupported /\ unsupported_option s f) \/
        not_yours s (dc_handle d) loc e \/
        exists i x, first_slot (names s (dc_handle d) loc) i /\ at_slot s i x /\
          ((e = InvalidArgument /\ bad_request s d i x) \/
           if N.testbit f 24 then
             (e = InvalidArgument /\ tci_type (c_tci x) <> dc_tci_type d) \/
             (e = InvalidLocality /\ target <> loc) \/
             no_extension e \/
             (c_handle x <> repeat 0%N 16 /\ no_handle s' e)
           else
             (N.testbit f 29 = true /\ c_handle x <> repeat 0%N 16 /\ no_handle s' e) \/
             if N.testbit f 23 then
               (exists pe, e = PlatformErr pe /\ ueid_fault pe) \/
               (exists a b p out c' p' out', length out = room /\
                  ca_handle a = dc_handle d /\ ca_locality a = loc /\ length (ca_ueid a) <= 48 /\
                  cg KindExported a 80 s b p out = (Err e, c', p', out'))
             else
               (e = MaxTcis /\ full s) \/
               (e = InvalidArgument /\ unsafe_child d target s i) \/
               no_extension e \/
               (N.testbit f 28 = false /\ no_handle s' e))
    | CmdUpdateContextMeasurement u =>
        (e = InvalidArgument /\ uc_parent_handle u = repeat 0%N 16) \/
        (e = InvalidParentLocality /\ forall i, ~ names s (uc_parent_handle u) loc i) \/
        exists p, first_slot (names s (uc_parent_handle u) loc) p /\
          ((e = InvalidArgument /\
            forall i c, child_of s p i -> at_slot s i c -> c_state c = Active -> tci_type (c_tci c) <> uc_tci_type u) \/
           no_extension e \/ no_handle s' e)
    end.

  (** Circumstances in which a command can abort: hashing a certificate chain
      that the platform does not end, or the certificate writer itself. *)
  Definition aborts (cmd : command) (loc : N) (s : state) (k : crash) : Prop :=
    match cmd with
    | CmdSign _ =>
        exists h i, presents cmd h /\ first_slot (names s h loc) i /\
          (exists j c, below s j i /\ at_slot s j c /\ c_dice c = true) /\
          exists p, ~ chain_stops po (fuel cf) 0 (repeat 0%N 2048) p
    | CmdCertifyKey _ =>
        exists kd a o b p out c' p' out', cg kd a o s b p out = (Crash k, c', p', out')
    | CmdDeriveContext d =>
        N.testbit (dc_flags d) 23 = true /\
        exists a o b p out c' p' out', cg KindExported a o s b p out = (Crash k, c', p', out')
    | _ => False
    end.

  (** ** Availability.  [legitimate] tells, positively, when a request deserves
      to be carried out. *)
  Definition mine (s : state) (h : bytes) (loc : N) (i : nat) (x : context) : Prop :=
    first_slot (names s h loc) i /\ at_slot s i x.

  Definition legitimate (cmd : command) (loc : N) (s : state) : Prop :=
    match cmd with
    | CmdGetProfile => True
    | CmdInitCtx f =>
        (** exactly one of DEFAULT and SIMULATION, and a free slot *)
        (exists i c, at_slot s i c /\ c_state c = Inactive) /\
        ((N.testbit f 30 = true /\ N.testbit f 31 = false /\ st_init s = false) \/
         (N.testbit f 30 = false /\ N.testbit f 31 = true /\ supports s SIMULATION))
    | CmdRotateCtx h f =>
        supports s ROTATE_CONTEXT /\
        exists i x, mine s h loc i x /\
          (** to become the default context it must be alone in its locality *)
          (N.testbit f 31 = true -> c_handle x <> repeat 0%N 16 /\
             forall j y, at_slot s j y -> c_state y = Active -> c_locality y = loc -> j = i)
    | CmdDestroyCtx h => exists i x, mine s h loc i x
    | CmdGetCertificateChain off size =>
        (size <= 2048)%N /\ forall p, exists n b' p', po_certificate_chain po off size (repeat 0%N 2048) p = (inl n, b', p')
    | CmdSign c =>
        (forall r, c = SignMldsa87Raw r -> (sr_size r <= N.of_nat (length (sr_raw r)))%N) /\
        forall h, presents cmd h -> exists i x, mine s h loc i x /\ c_type x = Normal
    | CmdCertifyKey c =>
        exists h i x, presents cmd h /\ mine s h loc i x /\
          match prof cf, c with
          | P256Sha256, CertifyP256 k | P384Sha384, CertifyP384 k | Mldsa87, CertifyMldsa87 k =>
              (ck_format k = 0%N /\ supports s X509 /\ c_x509 x = true) \/ (ck_format k = 1%N /\ supports s CSR)
          | _, _ => False
          end
    | CmdDeriveContext d =>
        let f := dc_flags d in
        let target := if N.testbit f 27 then dc_target_locality d else loc in
        ~ unsupported_option s f /\
        exists i x, mine s (dc_handle d) loc i x /\ ~ bad_request s d i x /\
          if N.testbit f 24 then tci_type (c_tci x) = dc_tci_type d /\ target = loc
          else if N.testbit f 23 then True
          else (exists j c, at_slot s j c /\ c_state c = Inactive) /\
               if N.testbit f 28 then
                 (** alone in the target locality, or replacing the default parent there *)
                 forall j c, at_slot s j c -> c_state c = Active -> c_locality c = target ->
                   j = i /\ c_handle c = repeat 0%N 16 /\ N.testbit f 29 = false
               else
                 (** no default context there, or replacing it *)
                 forall j, names s (repeat 0%N 16) target j -> j = i /\ N.testbit f 29 = false
    | CmdUpdateContextMeasurement u =>
        uc_parent_handle u <> repeat 0%N 16 /\
        exists p x, mine s (uc_parent_handle u) loc p x /\
          exists i c, child_of s p i /\ at_slot s i c /\ c_state c = Active /\ tci_type (c_tci c) = uc_tci_type u
    end.

  (** An environment that does its duty; its certificates take at most [need]
      bytes. *)
  Record dependable (need : nat) : Prop := {
    dep_hash : forall e, ~ hash_fault e;
    dep_digest : forall l d, hash_of co l d -> length d = tci_size cf;
    dep_key : forall e, ~ key_fault e;
    dep_vendor : forall e, ~ vendor_fault e;
    dep_ueid : forall e, ~ ueid_fault e;
    dep_chunk : forall o b p n b' p', po_certificate_chain po o 2048 b p = (inl n, b', p') -> (n mod 2 ^ 32 <= 2048)%N;
    dep_chain : forall p, chain_stops po (fuel cf) 0 (repeat 0%N 2048) p;
    dep_signature : forall d b sg b', co_signer_sign co d b = (inl sg, b') ->
      match sg with
      | SigEcdsa256 _ _ => feat_p256 cf = true
      | SigEcdsa384 _ _ => feat_p384 cf = true
      | SigMldsa _ => feat_mldsa cf = true
      end;
    dep_writer : forall kd a o s b p out, o + need <= length out ->
      exists cr c' p' out', cg kd a o s b p out = (Ok cr, c', p', out');
    dep_pubkey : forall kd a o s b p out cr c' p' out', cg kd a o s b p out = (Ok cr, c', p', out') ->
      match prof cf, cr_pubkey cr with
      | P256Sha256, PkEcdsa256 _ _ | P384Sha384, PkEcdsa384 _ _ | Mldsa87, PkMldsa _ => True
      | _, _ => False
      end
  }.

  (** The room a response takes, if certificates take [need] bytes. *)
  Definition room_for (need : nat) (cmd : command) : nat :=
    fixed_size cf cmd +
    match cmd with
    | CmdCertifyKey _ => need
    | CmdDeriveContext d => if N.testbit (dc_flags d) 23 then need else 0
    | _ => 0
    end.

  (** Does the command have to make up a new handle? *)
  Definition needs_handle (cmd : command) (loc : N) (s : state) : Prop :=
    match cmd with
    | CmdGetProfile | CmdDestroyCtx _ | CmdGetCertificateChain _ _ => False
    | CmdInitCtx f => N.testbit f 31 = true
    | CmdRotateCtx _ f => N.testbit f 31 = false
    | CmdUpdateContextMeasurement _ => True
    | CmdDeriveContext d =>
        (N.testbit (dc_flags d) 24 = true \/ N.testbit (dc_flags d) 29 = true) /\ dc_handle d <> repeat 0%N 16 \/
        N.testbit (dc_flags d) 24 = false /\ N.testbit (dc_flags d) 23 = false /\ N.testbit (dc_flags d) 28 = false
    | _ => exists h, presents cmd h /\ h <> repeat 0%N 16
    end.
End Reasons.
