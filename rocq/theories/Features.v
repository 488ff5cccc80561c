(** Features.v -- builds with some of the [disable_*] cargo features
    (dpe/Cargo.toml:25-34).  The other model files describe the default build,
    without any of them.

    The features in force are a mask [d] over the positions of the support bits
    (dpe/src/support.rs:10-23): bit 31 is disable_simulation, 30
    disable_recursive, 29 disable_auto_init, 27 disable_rotate_context, 26
    disable_x509, 25 disable_csr, 22 disable_internal_info, 21
    disable_internal_dice, 19 disable_retain_parent_context, 18
    disable_export_cdi.  Only definitions with a [cfg] gate, and those that call
    them, are repeated here.

    Simplified: with disable_x509 the match arm of dpe/src/x509.rs:2621-2650 has
    no value, so such a build does not seem to compile; here the writer of
    exported certificates is the one of the default build for every [d]. *)
From Verif Require Import Base Errors Types StateOps Env Wire Instance Commands X509 X509Cert Response.
Open Scope N_scope.
Open Scope dpe_scope.

(** dpe/src/support.rs:58-102 [preprocess_support]: [self.difference(mask)]. *)
Definition gated_support (d sup : N) : N := N.ldiff sup d.

Section Gated.
  Variable d : N.
  Variable cf : config.
  Variables C P : Type.
  Variable co : crypto_ops C.
  Variable po : platform_ops P.
  Notation M := (M C P).

  (** dpe/src/state.rs:62-74 [State::new]. *)
  Definition gated_state_new (sup flags : N) : state := state_new cf (gated_support d sup) flags.

  (** dpe_instance.rs:331-395, gates at 360 and 376. *)
  Definition gated_hash (start : nat) : M digest :=
    crypto (co_hasher co) ;;
    crypto (co_hash_initialize co) ;;
    let! s := get_st in
    let! it := lift (iter_new cf start (st_contexts s)) in
    let! (info, dice) := hash_nodes cf C P co (fuel cf) (st_contexts s) it false false in
    (if negb (N.testbit d 22) && info then
       let! b := internal_input_info cf C P po (st_support s) in
       crypto (co_hash_update co b)
     else ret tt) ;;
    (if negb (N.testbit d 21) && dice then
       hash_cert_chain C P co po (fuel cf) 0 (repeat 0 (N.to_nat max_chunk_size))
     else ret tt) ;;
    crypto (co_hash_finish co).

  (** x509.rs:2671-2816 on top of the gated hash. *)
  Definition gated_create_cert (k : cert_kind) (a : cert_args) (off : nat) : M cert_result :=
    let! s0 := get_st in
    let! idx0 := lift (get_active_context_pos s0 (ca_handle a) (ca_locality a)) in
    let! dg := gated_hash idx0 in
    let! pk_h := derive_subject_key C P co k a dg in
    let pk := fst pk_h in
    let! subject := get_subject_name C P co k pk in
    let! ski := get_subject_key_identifier C P co pk in
    let! aki := get_authority_key_identifier C P po in
    let! san := get_subject_alt_name C P po in
    let! s := get_st in
    let! idx := lift (get_active_context_pos s (ca_handle a) (ca_locality a)) in
    lift (tci_nodes_new cf idx (st_contexts s)) ;;
    let md := {| md_start := idx; md_contexts := st_contexts s; md_label := ca_ueid a;
                 md_is_ca := kind_exported k;
                 md_recursive := if kind_exported k then false else sup_recursive (st_support s);
                 md_ski := ski; md_aki := aki; md_san := san |} in
    let! v := platform (po_cert_validity po) in
    let! sid := platform (po_signer_identifier po) in
    let cb := sign_cb C co k a dg (snd pk_h) in
    let! n :=
      (if kind_csr k then generate_csr cf C P (ca_critical a) off (cap_sid sid) subject pk md cb
       else
         let! issuer := get_issuer_name C P po in
         generate_cert cf C P (ca_critical a) off issuer (cap_validity v) subject pk md cb) in
    let! h :=
      (if kind_exported k
       then lift (ok_or (snd pk_h) (InternalError MissingExportedCdiHandle))
       else ret (repeat 0 max_exported_cdi_size)) in
    ret {| cr_size := n; cr_pubkey := pk; cr_exported := h |}.

  (** The parameter [cert_gen] of Commands.v, as in X509Cert.v. *)
  Definition gated_gen (k : cert_kind) (a : cert_args) (off : nat) (s : state) (c : C) (p : P)
             (out : bytes) : result cert_result * C * P * bytes :=
    match gated_create_cert k a off (mkWorld s c p out) with
    | (r, w) => (r, w_c w, w_p w, w_out w)
    end.

  (** sign.rs:264-288 and 135-253 on top of the gated hash. *)
  Definition gated_do_sign (idx : nat) (label : bytes) (data : sign_data) : M signature :=
    let! dg := gated_hash idx in
    crypto (co_derive_cdi co dg str_DPE) ;;
    crypto (co_derive_key_pair co label (key_context (prof cf))) ;;
    crypto (co_signer_sign co data).
  Definition gated_sign (c : sign_command) (locality : N) : M N :=
    let! (h, label, data) := lift (sign_inputs c) in
    let! s := get_st in
    let! idx := lift (get_active_context_pos s h locality) in
    let! ctx := st_get C P idx (InternalError ContextIndexOob) in
    if ctx_type_eqb (c_type ctx) Simulation then fail InvalidArgument
    else
      let! sg := gated_do_sign idx label data in
      match signature_bytes cf sg with
      | None => fail InvalidArgument
      | Some sb =>
          let! ctx := st_index C P idx in
          let! ctx := roll_handle C P co ctx in
          st_assign C P idx ctx ;;
          respond C P (sign_resp_bytes cf (c_handle ctx) sb)
      end.

  (** derive_context.rs:228-510, gates at 302 and 372. *)
  Definition gated_derive (c : derive_cmd) (locality : N) : M N :=
    let flags := dc_flags c in
    let! s := get_st in
    if derive_unsupported (st_support s) flags then fail ArgumentNotSupported
    else
      let! (pc, parent) := lift (get_active_context_and_idx s (dc_handle c) locality) in
      if derive_bad_args pc flags then fail InvalidArgument
      else
        let target := if df_change_locality flags then dc_target_locality c else locality in
        if df_recursive flags then
          if N.testbit d 30 then fail ArgumentNotSupported
          else derive_recursive cf C P co c parent target
        else
          let! u := lift (tci_type_unique s (children_iter cf (c_children pc)) (dc_tci_type c)) in
          if negb u then fail InvalidArgument
          else
            let! pc := st_get C P parent (InternalError ContextIndexOob) in
            let! tmp_parent := derive_tmp_parent C P co flags pc in
            if df_create_cert flags && df_export_cdi flags
            then if N.testbit d 18 then fail ArgumentNotSupported
                 else derive_export cf C P po gated_gen c parent tmp_parent locality
            else derive_child cf C P co c parent tmp_parent target.

  (** certify_key.rs:129-243, gates at 221 and 232. *)
  Definition gated_certify (cmd : certify_command) (locality : N) : M N :=
    let c := certify_inner cmd in
    let p := certify_profile cmd in
    let! s := get_st in
    let! idx := lift (get_active_context_pos s (ck_handle c) locality) in
    let! ctx := st_get C P idx (InternalError ContextIndexOob) in
    if N.eqb (ck_format c) 0 && negb (sup_x509 (st_support s)) then fail ArgumentNotSupported
    else if N.eqb (ck_format c) 0 && negb (c_x509 ctx) then fail InvalidArgument
    else if N.eqb (ck_format c) 1 && negb (sup_csr (st_support s)) then fail ArgumentNotSupported
    else if negb (N.eqb (c_locality ctx) locality) then fail InvalidLocality
    else
      let args := {| ca_handle := ck_handle c; ca_locality := locality;
                     ca_cdi_label := str_DPE; ca_key_label := ck_label c;
                     ca_context := key_context (prof cf); ca_ueid := ck_label c;
                     ca_critical := flag_dice_critical (st_flags s) |} in
      let! r := (if N.eqb (ck_format c) 0 then
                   if N.testbit d 26 then fail ArgumentNotSupported
                   else run_cert C P gated_gen KindX509 args (certify_hdr_size p)
                 else if N.eqb (ck_format c) 1 then
                   if N.testbit d 25 then fail ArgumentNotSupported
                   else run_cert C P gated_gen KindCsr args (certify_hdr_size p)
                 else fail InvalidArgument) in
      let! ctx := st_index C P idx in
      let! ctx := roll_handle C P co ctx in
      st_assign C P idx ctx ;;
      match pubkey_bytes p (cr_pubkey r) with
      | None => fail InvalidArgument
      | Some pk =>
          write_out 0 (certify_hdr_bytes cf (c_handle ctx) pk (cr_size r)) ;;
          ret (N.of_nat (certify_hdr_size p) + cr_size r)
      end.

  (** commands/mod.rs:304-331, gate at 323.  With disable_rotate_context the
      type of commands has no such value ([gated_deserialize] never returns
      one); the answer given here for it is never used. *)
  Definition gated_command (c : command) (locality : N) : M N :=
    match c with
    | CmdDeriveContext c => gated_derive c locality
    | CmdCertifyKey c => gated_certify c locality
    | CmdSign c => gated_sign c locality
    | CmdRotateCtx h flags =>
        if N.testbit d 27 then fail InvalidCommand else exec_rotate cf C P co h flags locality
    | _ => exec_command cf C P co po gated_gen c locality
    end.

  (** commands/mod.rs:92-124, gate at 104: without its arm the id of
      RotateContextHandle falls through to InvalidCommand, whatever follows the
      header. *)
  Definition gated_deserialize (b : bytes) : result command :=
    rbind (parse_command_hdr cf b) (fun id =>
      if N.testbit d 27 && N.eqb id 0x0E then Err InvalidCommand
      else deserialize_command cf b).

  (** commands/mod.rs:334-408 and dpe_instance.rs:160-186. *)
  Definition gated_execute (cmd : command) (locality : N) : M response :=
    let! (_, buf) := with_out C P (repeat 0 (response_size cf cmd)) (gated_command cmd locality) in
    lift (ok_or (read_exact cf cmd buf) (InternalError ResponseDeserializationFailed)).
  Definition gated_serialized (locality : N) (b : bytes) : M response :=
    let! cmd := lift (gated_deserialize b) in
    fun w => match gated_execute cmd locality w with
             | (Err e, w') => (Ok (RespError (new_response_hdr cf e)), w')
             | r => r
             end.
End Gated.
