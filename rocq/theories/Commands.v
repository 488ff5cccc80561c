(** Commands.v -- the nine DPE commands ([CommandExecution::execute_serialized]
    of dpe/src/commands/*.rs) and the creation of an instance. *)
From Verif Require Import Base Errors Types StateOps Env Wire Instance.
Open Scope N_scope.
Open Scope dpe_scope.

(** dpe/src/x509.rs:2429-2468: what a certificate is generated from and the
    result of generating one. *)
Inductive cert_kind := KindX509 | KindCsr | KindExported.
Record cert_args := {
  ca_handle : bytes;
  ca_locality : N;
  ca_cdi_label : bytes;
  ca_key_label : bytes;
  ca_context : bytes;
  ca_ueid : bytes;
  ca_critical : bool
}.
Record cert_result := {
  cr_size : N;
  cr_pubkey : pubkey;
  cr_exported : bytes
}.

(** ASCII constants of certify_key.rs, sign.rs and derive_context.rs:382-400. *)
Definition str_DPE : bytes := [68; 80; 69].
Definition str_exported_cdi : bytes :=
  [69; 120; 112; 111; 114; 116; 101; 100; 32; 67; 68; 73].
Definition str_exported_ecc : bytes :=
  [69; 120; 112; 111; 114; 116; 101; 100; 32; 69; 67; 67].
Definition str_exported_mldsa : bytes :=
  [69; 120; 112; 111; 114; 116; 101; 100; 32; 77; 76; 45; 68; 83; 65].
Definition exported_label (p : profile) : bytes :=
  match p with Mldsa87 => str_exported_mldsa | _ => str_exported_ecc end.

(** platform/src/lib.rs:36-44 [Ueid::get]. *)
Definition max_ueid_size : nat := 48%nat.
Definition ueid_get (u : ueid) : option bytes :=
  if N.leb (ueid_size u) (N.of_nat max_ueid_size)
  then Some (firstn (N.to_nat (ueid_size u)) (to_buf max_ueid_size (ueid_buf u)))
  else None.

(** ** Destroying a sub-tree (no environment needed) *)
Section Destroy.
  Variable cf : config.

  (** destroy_context.rs:47-69: collect consecutive retired ancestors that have
      exactly one child.  Unbounded loop in Rust. *)
  Fixpoint collect_retired (n : nat) (s : state) (parent : nat) (acc : N) : result N :=
    match n with
    | O => Crash CrashFuel
    | S n' =>
        if Nat.eqb parent ROOT then Ok acc
        else
          rbind (ok_or (get_ctx s parent) (InternalError DestroyParentIndexOob)) (fun pc =>
            if ctx_state_eqb (c_state pc) Retired
               && Nat.eqb (length (children_iter cf (c_children pc))) 1
            then rbind (children_add cf acc parent) (fun acc' =>
                   collect_retired n' s (c_parent pc) acc')
            else Ok acc)
    end.

  (** destroy_context.rs:77-85: the loop over all slots. *)
  Definition destroy_slot (to_destroy : N) (p : nat * context) : context :=
    let c := set_children (remove_children (c_children (snd p)) to_destroy) (snd p) in
    if has_child cf to_destroy (fst p) then ctx_destroy cf c else c.
  Definition destroy_slots (to_destroy : N) (s : state) : state :=
    set_contexts (map (destroy_slot to_destroy) (enumerate (st_contexts s))) s.

  (** destroy_context.rs:30-87 [destroy_context]. *)
  Definition destroy_context (h : bytes) (s : state) (locality : N) : result state :=
    rbind (get_active_context_and_idx s h locality) (fun ci =>
      let (c, idx) := ci in
      if negb (N.eqb (c_locality c) locality) then Err InvalidLocality
      else
        rbind (collect_retired (fuel cf) s (c_parent c) 0) (fun retired =>
        rbind (get_descendants cf (fuel cf) s c) (fun desc =>
        rbind (children_add cf desc idx) (fun d1 =>
          Ok (destroy_slots (add_children d1 retired) s))))).
End Destroy.

Section Commands.
  Variable cf : config.
  Variables C P : Type.
  Variable co : crypto_ops C.
  Variable po : platform_ops P.
  Notation M := (M C P).

  (** Certificate generation (dpe/src/x509.rs [create_dpe_cert],
      [create_dpe_csr], [create_exported_dpe_cert]) is a parameter here and is
      instantiated by the X.509 model.  It writes into the response buffer
      behind the given offset ([OffsetResponseBuffer],
      response-buffer/src/lib.rs:45-92) and only reads the DPE state. *)
  Variable cert_gen : cert_kind -> cert_args -> nat -> state -> C -> P -> bytes ->
                      result cert_result * C * P * bytes.

  Definition run_cert (k : cert_kind) (a : cert_args) (off : nat) : M cert_result := fun w =>
    match cert_gen k a off (w_st w) (w_c w) (w_p w) (w_out w) with
    | (r, c, p, o) => (r, mkWorld (w_st w) c p o)
    end.

  (** [out.write_at(0, bytes)...?; Ok(bytes.len())] *)
  Definition respond (bs : bytes) : M N :=
    write_out 0 bs ;; ret (N.of_nat (length bs)).

  (** get_profile.rs:30-43. *)
  Definition exec_get_profile : M N :=
    let! s := get_st in
    let! b := get_profile cf C P po (st_support s) in
    respond b.

  (** initialize_context.rs:55-130. *)
  Definition exec_init (flags locality : N) : M N :=
    let! s := get_st in
    let is_default := if_default flags in
    let is_sim := if_simulation flags in
    if (is_default && st_init s) || (is_sim && negb (sup_simulation (st_support s)))
    then fail ArgumentNotSupported
    else if negb (xorb is_default is_sim) then fail InvalidArgument
    else
      let! idx := lift (ok_or (get_next_inactive_context_pos s) MaxTcis) in
      let! (ty, h) :=
        (if is_default then
           put_st (set_init true s) ;; ret (Normal, default_handle)
         else
           let! h := generate_new_handle C P co in ret (Simulation, h)) in
      let! old := st_get C P idx (InternalError InitContextIndexOob) in
      st_set C P idx
        (ctx_activate cf old
           {| aa_type := ty; aa_locality := locality; aa_handle := h;
              aa_tci_type := 0; aa_parent := ROOT; aa_x509 := true;
              aa_info := false; aa_dice := false; aa_export := true;
              aa_svn := 0; aa_recursive := is_default |})
        (InternalError InitContextIndexOob) ;;
      respond (new_handle_resp_bytes cf h).

  (** derive_context.rs:116-136 [safe_to_make_default]. *)
  Definition safe_to_make_default (flags : N) (parent : nat) (def : option nat) (num : nat)
    : bool :=
    match num, def with
    | O, None => true
    | 1%nat, Some d => if Nat.eqb d parent then negb (df_retain_parent flags) else false
    | _, _ => false
    end.

  (** derive_context.rs:147-161 [safe_to_make_non_default]. *)
  Definition safe_to_make_non_default (flags : N) (parent : nat) (def : option nat) : bool :=
    match def with
    | None => true
    | Some d => if Nat.eqb d parent then negb (df_retain_parent flags) else false
    end.

  (** derive_context.rs:172-189 [tci_type_is_unique_among_children]. *)
  Fixpoint tci_type_unique (s : state) (l : list nat) (ty : N) : result bool :=
    match l with
    | [] => Ok true
    | idx :: l' =>
        rbind (ok_or (get_ctx s idx) (InternalError ChildIndexOob)) (fun c =>
          if N.eqb (tci_type (c_tci c)) ty then Ok false else tci_type_unique s l' ty)
    end.

  (** derive_context.rs:202-222 [safe_to_make_child]. *)
  Definition safe_to_make_child (s : state) (flags : N) (parent : nat) (target : N) : bool :=
    let def := match get_active_context_pos s default_handle target with
               | Ok i => Some i | _ => None end in
    let num := count_contexts s (active_in target) in
    if df_make_default flags then safe_to_make_default flags parent def num
    else safe_to_make_non_default flags parent def.

  (** derive_context.rs:246-254: options the instance does not support. *)
  Definition derive_unsupported (sup flags : N) : bool :=
    (negb (sup_internal_info sup) && df_internal_info flags)
    || (negb (sup_internal_dice sup) && df_internal_dice flags)
    || (negb (sup_retain_parent sup) && df_retain_parent flags)
    || (negb (sup_x509 sup) && df_allow_x509 flags)
    || (negb (sup_cdi_export sup) && (df_create_cert flags || df_export_cdi flags))
    || (negb (sup_recursive sup) && df_recursive flags).

  (** derive_context.rs:260-277: illegal combinations of flags and parent. *)
  Definition derive_bad_args (pc : context) (flags : N) : bool :=
    (negb (c_x509 pc) && df_allow_x509 flags)
    || (df_export_cdi flags && negb (df_create_cert flags))
    || (df_export_cdi flags && df_recursive flags)
    || (df_export_cdi flags && df_change_locality flags)
    || (df_export_cdi flags && ctx_type_eqb (c_type pc) Simulation)
    || (df_export_cdi flags && negb (c_export pc))
    || (df_recursive flags && df_retain_parent flags)
    || (df_allow_recursive flags && df_recursive flags)
    || (negb (c_recursive pc) && df_recursive flags).

  (** derive_context.rs:300-338: the RECURSIVE branch. *)
  Definition derive_recursive (c : derive_cmd) (parent : nat) (target : N) : M N :=
    let! tmp := st_get C P parent (InternalError ContextIndexOob) in
    if negb (N.eqb (tci_type (c_tci tmp)) (dc_tci_type c)) then fail InvalidArgument
    else
      let! tmp := add_tci_measurement C P co tmp (dc_data c) target in
      let! tmp := roll_handle C P co tmp in
      st_assign C P parent tmp ;;
      respond (two_handle_resp_bytes cf (c_handle tmp) default_handle).

  (** derive_context.rs:346-368: the parent's copy, with a fresh handle or
      retired. *)
  Definition derive_tmp_parent (flags : N) (pc : context) : M context :=
    if df_retain_parent flags then
      if negb (handle_is_default (c_handle pc)) then
        let! h := generate_new_handle C P co in ret (set_handle h pc)
      else ret pc
    else ret (set_handle invalid_handle (set_state Retired pc)).

  (** derive_context.rs:370-431: the EXPORT_CDI branch. *)
  Definition derive_export (c : derive_cmd) (parent : nat) (tmp_parent : context)
             (locality : N) : M N :=
    let! u := platform (po_ueid po) in
    let! ueid := lift (ok_or (ueid_get u) (PlatformErr PEInvalidUeid)) in
    let! s := get_st in
    let! r := run_cert KindExported
                {| ca_handle := dc_handle c; ca_locality := locality;
                   ca_cdi_label := str_exported_cdi;
                   ca_key_label := exported_label (prof cf);
                   ca_context := exported_label (prof cf);
                   ca_ueid := ueid;
                   ca_critical := flag_dice_critical (st_flags s) |}
                exported_hdr_size in
    let! pc := (if negb (df_retain_parent (dc_flags c))
                then let! x := st_get C P parent (InternalError ContextIndexOob) in
                     ret (has_children (c_children x))
                else ret true) in
    (if negb pc then
       let! s := get_st in
       let! s' := lift (destroy_context cf (dc_handle c) s locality) in
       put_st s'
     else st_set C P parent tmp_parent (InternalError ContextIndexOob)) ;;
    let! p := st_index C P parent in
    write_out 0 (exported_hdr_bytes cf invalid_handle (c_handle p)
                   (to_buf exported_cdi_size (cr_exported r)) (cr_size r)) ;;
    ret (N.of_nat exported_hdr_size + cr_size r).

  (** derive_context.rs:432-509: creating a child. *)
  Definition derive_child (c : derive_cmd) (parent : nat) (tmp_parent : context)
             (target : N) : M N :=
    let flags := dc_flags c in
    let! s := get_st in
    let! child := lift (ok_or (get_next_inactive_context_pos s) MaxTcis) in
    if negb (safe_to_make_child s flags parent target) then fail InvalidArgument
    else
      let! h := (if df_make_default flags then ret default_handle
                 else generate_new_handle C P co) in
      let! pc := st_get C P parent (InternalError ContextIndexOob) in
      let tmp_child :=
        ctx_activate cf (ctx_new cf)
          {| aa_type := c_type pc; aa_locality := target; aa_handle := h;
             aa_tci_type := dc_tci_type c; aa_parent := parent;
             aa_x509 := df_allow_x509 flags; aa_info := df_internal_info flags;
             aa_dice := df_internal_dice flags;
             aa_export := df_allow_export flags && c_export tmp_parent;
             aa_svn := dc_svn c;
             aa_recursive := df_allow_recursive flags && c_recursive tmp_parent |} in
      let! tmp_child := add_tci_measurement C P co tmp_child (dc_data c) target in
      let! tmp_parent := lift (ctx_add_child cf tmp_parent child) in
      st_assign C P child tmp_child ;;
      st_assign C P parent tmp_parent ;;
      let! p := st_index C P parent in
      respond (two_handle_resp_bytes cf h (c_handle p)).

  (** derive_context.rs:228-510. *)
  Definition exec_derive (c : derive_cmd) (locality : N) : M N :=
    let flags := dc_flags c in
    let! s := get_st in
    if derive_unsupported (st_support s) flags then fail ArgumentNotSupported
    else
      let! (pc, parent) := lift (get_active_context_and_idx s (dc_handle c) locality) in
      if derive_bad_args pc flags then fail InvalidArgument
      else
        let target := if df_change_locality flags then dc_target_locality c else locality in
        if df_recursive flags then derive_recursive c parent target
        else
          let! u := lift (tci_type_unique s (children_iter cf (c_children pc)) (dc_tci_type c)) in
          if negb u then fail InvalidArgument
          else
            let! pc := st_get C P parent (InternalError ContextIndexOob) in
            let! tmp_parent := derive_tmp_parent flags pc in
            if df_create_cert flags && df_export_cdi flags
            then derive_export c parent tmp_parent locality
            else derive_child c parent tmp_parent target.

  (** destroy_context.rs:90-105. *)
  Definition exec_destroy (h : bytes) (locality : N) : M N :=
    let! s := get_st in
    let! s' := lift (destroy_context cf h s locality) in
    put_st s' ;;
    respond (ok_hdr_bytes cf).

  (** rotate_context.rs:67-79 [non_default_valid_handles_exist]. *)
  Definition other_non_default (s : state) (locality : N) (target : nat) : bool :=
    existsb (fun p => ctx_state_eqb (c_state (snd p)) Active
                      && N.eqb (c_locality (snd p)) locality
                      && negb (handle_is_default (c_handle (snd p)))
                      && negb (Nat.eqb (fst p) target))
            (enumerate (st_contexts s)).

  (** rotate_context.rs:82-139. *)
  Definition exec_rotate (h : bytes) (flags locality : N) : M N :=
    let! s := get_st in
    if negb (sup_rotate (st_support s)) then fail InvalidCommand
    else
      let! idx := lift (get_active_context_pos s h locality) in
      if rf_target_default flags
         && (is_ok (get_active_context_pos s default_handle locality)
             || other_non_default s locality idx)
      then fail InvalidArgument
      else
        let! nh := (if rf_target_default flags then ret default_handle
                    else generate_new_handle C P co) in
        let! c := st_get C P idx (InternalError ContextIndexOob) in
        st_set C P idx (set_handle nh c) (InternalError ContextIndexOob) ;;
        respond (new_handle_resp_bytes cf nh).

  (** update_context_measurement.rs:51-135. *)
  Definition exec_update (c : update_cmd) (locality : N) : M N :=
    if handle_is_default (uc_parent_handle c) then fail InvalidArgument
    else
      let! s := get_st in
      let! parent := lift (match get_active_context_pos s (uc_parent_handle c) locality with
                           | Err _ => Err InvalidParentLocality
                           | r => r end) in
      let! pc := st_get C P parent (InternalError ContextIndexOob) in
      let! child := lift (ok_or
          (find (fun i => match get_ctx s i with
                          | Some x => ctx_state_eqb (c_state x) Active
                                      && N.eqb (tci_type (c_tci x)) (uc_tci_type c)
                          | None => false
                          end) (children_iter cf (c_children pc)))
          InvalidArgument) in
      let! tmp_child := st_get C P child (InternalError ChildIndexOob) in
      let! tmp_child := add_tci_measurement C P co tmp_child (uc_data c) (c_locality tmp_child) in
      let! tmp_parent := st_get C P parent (InternalError ContextIndexOob) in
      let! tmp_parent := roll_handle C P co tmp_parent in
      st_set C P parent tmp_parent (InternalError ContextIndexOob) ;;
      let! tmp_child := roll_handle C P co tmp_child in
      st_set C P child tmp_child (InternalError ChildIndexOob) ;;
      respond (two_handle_resp_bytes cf (c_handle tmp_child) (c_handle tmp_parent)).

  (** get_certificate_chain.rs:32-56. *)
  Definition exec_get_chain (offset size : N) : M N :=
    if N.ltb max_chunk_size size then fail InvalidArgument
    else
      let! (r, buf) := cert_chain_call C P po offset size (repeat 0 (N.to_nat max_chunk_size)) in
      match r with
      | inr e => fail (PlatformErr e)
      | inl len => respond (cert_chain_resp_bytes cf len buf)
      end.

  (** sign.rs:264-288 [sign]. *)
  Definition do_sign (idx : nat) (label : bytes) (data : sign_data) : M signature :=
    let! d := compute_measurement_hash cf C P co po idx in
    crypto (co_derive_cdi co d str_DPE) ;;
    crypto (co_derive_key_pair co label (key_context (prof cf))) ;;
    crypto (co_signer_sign co data).

  (** sign.rs:188-246: the response bytes of the signature variant returned, for
      the variants compiled in. *)
  Definition signature_bytes (sg : signature) : option bytes :=
    match sg with
    | SigEcdsa256 r s => if feat_p256 cf then Some (to_buf 32 r ++ to_buf 32 s) else None
    | SigEcdsa384 r s => if feat_p384 cf then Some (to_buf 48 r ++ to_buf 48 s) else None
    | SigMldsa b =>
        if feat_mldsa cf then Some (to_buf (N.to_nat mldsa87_sig_size) b ++ [0]) else None
    end.

  (** sign.rs:146-172: handle, label and data of a sign command. *)
  Definition sign_inputs (c : sign_command) : result (bytes * bytes * sign_data) :=
    match c with
    | SignP256 c => Ok (sg_handle c, sg_label c, SDDigest (DSha256 (sg_digest c)))
    | SignP384 c => Ok (sg_handle c, sg_label c, SDDigest (DSha384 (sg_digest c)))
    | SignMldsa87 c => Ok (sg_handle c, sg_label c, SDMu (sg_digest c))
    | SignMldsa87Raw c =>
        if N.leb (sr_size c) (N.of_nat (length (sr_raw c)))
        then Ok (sr_handle c, sr_label c, SDRaw (firstn (N.to_nat (sr_size c)) (sr_raw c)))
        else Err InvalidArgument
    end.

  (** sign.rs:135-253. *)
  Definition exec_sign (c : sign_command) (locality : N) : M N :=
    let! (h, label, data) := lift (sign_inputs c) in
    let! s := get_st in
    let! idx := lift (get_active_context_pos s h locality) in
    let! ctx := st_get C P idx (InternalError ContextIndexOob) in
    if ctx_type_eqb (c_type ctx) Simulation then fail InvalidArgument
    else
      let! sg := do_sign idx label data in
      match signature_bytes sg with
      | None => fail InvalidArgument
      | Some sb =>
          let! ctx := st_index C P idx in
          let! ctx := roll_handle C P co ctx in
          st_assign C P idx ctx ;;
          respond (sign_resp_bytes cf (c_handle ctx) sb)
      end.

  (** certify_key.rs:325-357 [CertifyKeyResponseHeader::hdr_size]. *)
  Definition certify_hdr_size (p : profile) : nat :=
    (12 + 16 + match p with
               | P256Sha256 => 32 + 32
               | P384Sha384 => 48 + 48
               | Mldsa87 => N.to_nat mldsa87_pk_size
               end + 4)%nat.

  Definition certify_profile (c : certify_command) : profile :=
    match c with
    | CertifyP256 _ => P256Sha256
    | CertifyP384 _ => P384Sha384
    | CertifyMldsa87 _ => Mldsa87
    end.
  Definition certify_inner (c : certify_command) : certify_cmd :=
    match c with CertifyP256 c | CertifyP384 c | CertifyMldsa87 c => c end.

  (** certify_key.rs:366-408: public key bytes of the header, if the key type
      matches the command. *)
  Definition pubkey_bytes (p : profile) (k : pubkey) : option bytes :=
    match p, k with
    | P256Sha256, PkEcdsa256 x y => Some (to_buf 32 x ++ to_buf 32 y)
    | P384Sha384, PkEcdsa384 x y => Some (to_buf 48 x ++ to_buf 48 y)
    | Mldsa87, PkMldsa b => Some (to_buf (N.to_nat mldsa87_pk_size) b)
    | _, _ => None
    end.

  (** certify_key.rs:129-243, 359-412. *)
  Definition exec_certify (cmd : certify_command) (locality : N) : M N :=
    let c := certify_inner cmd in
    let p := certify_profile cmd in
    let! s := get_st in
    let! idx := lift (get_active_context_pos s (ck_handle c) locality) in
    let! ctx := st_get C P idx (InternalError ContextIndexOob) in
    if N.eqb (ck_format c) 0 && negb (sup_x509 (st_support s)) then fail ArgumentNotSupported
    else if N.eqb (ck_format c) 0 && negb (c_x509 ctx) then fail InvalidArgument
    else if N.eqb (ck_format c) 1 && negb (sup_csr (st_support s)) then fail ArgumentNotSupported
    else if negb (N.eqb (c_locality ctx) locality) then fail InvalidLocality
    else
      let args := {| ca_handle := ck_handle c; ca_locality := locality;
                     ca_cdi_label := str_DPE; ca_key_label := ck_label c;
                     ca_context := key_context (prof cf); ca_ueid := ck_label c;
                     ca_critical := flag_dice_critical (st_flags s) |} in
      let! r := (if N.eqb (ck_format c) 0 then run_cert KindX509 args (certify_hdr_size p)
                 else if N.eqb (ck_format c) 1 then run_cert KindCsr args (certify_hdr_size p)
                 else fail InvalidArgument) in
      let! ctx := st_index C P idx in
      let! ctx := roll_handle C P co ctx in
      st_assign C P idx ctx ;;
      match pubkey_bytes p (cr_pubkey r) with
      | None => fail InvalidArgument
      | Some pk =>
          write_out 0 (certify_hdr_bytes cf (c_handle ctx) pk (cr_size r)) ;;
          ret (N.of_nat (certify_hdr_size p) + cr_size r)
      end.

  (** commands/mod.rs:304-331 [execute_serialized] of [Command]. *)
  Definition exec_command (c : command) (locality : N) : M N :=
    match c with
    | CmdGetProfile => exec_get_profile
    | CmdInitCtx flags => exec_init flags locality
    | CmdDeriveContext c => exec_derive c locality
    | CmdCertifyKey c => exec_certify c locality
    | CmdSign c => exec_sign c locality
    | CmdRotateCtx h flags => exec_rotate h flags locality
    | CmdDestroyCtx h => exec_destroy h locality
    | CmdGetCertificateChain off size => exec_get_chain off size
    | CmdUpdateContextMeasurement c => exec_update c locality
    end.

  (** Run with a private response buffer, keeping the caller's one. *)
  Definition with_out {A} (buf : bytes) (m : M A) : M (A * bytes) := fun w =>
    match m (mkWorld (w_st w) (w_c w) (w_p w) buf) with
    | (Ok a, w') => (Ok (a, w_out w'), mkWorld (w_st w') (w_c w') (w_p w') (w_out w))
    | (Err e, w') => (Err e, mkWorld (w_st w') (w_c w') (w_p w') (w_out w))
    | (Crash k, w') => (Crash k, mkWorld (w_st w') (w_c w') (w_p w') (w_out w))
    end.

  (** dpe_instance.rs:78-96 [DpeInstance::new]. *)
  Definition dpe_new : M unit :=
    let! s := get_st in
    if sup_auto_init (st_support s) then
      let! loc := platform (po_auto_init_locality po) in
      with_out (repeat 0 28%nat) (exec_init (bit 30) (N.modulo loc (2 ^ 32))) ;; ret tt
    else ret tt.

  (** dpe_instance.rs:109-135 [DpeInstance::new_auto_init].  The measurement is
      added to the stored context in place, so a later failure of the hash would
      leave it unchanged as well. *)
  Definition dpe_new_auto_init (ty : N) (measurement : bytes) : M unit :=
    let! s := get_st in
    if negb (sup_auto_init (st_support s)) then fail ArgumentNotSupported
    else
      dpe_new ;;
      let! loc := platform (po_auto_init_locality po) in
      let loc := N.modulo loc (2 ^ 32) in
      let! s := get_st in
      let! idx := lift (get_active_context_pos s default_handle loc) in
      let! c := st_get C P idx (InternalError InitContextIndexOob) in
      let! c := add_tci_measurement C P co c measurement loc in
      let t := c_tci c in
      st_assign C P idx (set_tci (mkTci ty (tci_cumulative t) (tci_current t)
                                        (tci_locality t) (tci_svn t)) c).
End Commands.
