(** Cfi.v -- the code with its control-flow-integrity assertions, which the cargo
    feature [cfi] adds and the default features include (dpe/Cargo.toml:
    [default = ["p384", "cfi"]]).  Only definitions with an assertion, and those
    that call them, are repeated here; the other model files leave them out.

    A decision ([if] or [match] on a value) in these definitions can be made to go
    the wrong way: [f] says at which places that happens.  With [f = no_fault] this
    is the code as written; other [f] stand for physical faults, which is what the
    assertions are there for.

    Simplified: a decision goes wrong as a whole ([a || b || c] is one decision), and
    each time it is met during a command;
    decisions inside the helpers of StateOps.v, Instance.v's handle generator and
    hash, the parser and the X.509 writer cannot go wrong; an assertion always works;
    [cfi_launder] is the identity (it only hides a value from the optimiser); the
    counters that the macro [cfi_impl_fn] puts around a function belong to another
    crate and are left out; an assertion that fails is [CrashAssert] (the handler
    [cfi_panic_handler] belongs to the platform and does not return). *)
From Verif Require Import Base Errors Types StateOps Env Wire Instance Commands X509 X509Cert Response.
Open Scope N_scope.
Open Scope dpe_scope.

(** The decisions, named after what they decide. *)
Inductive site :=
| AtNewAuto                    (* dpe_instance.rs:81 *)
| AtAutoSupport                (* dpe_instance.rs:116 *)
| AtRoll                       (* dpe_instance.rs:236, the handle of the context used *)
| AtRollParent                 (* the same, for the parent in update_context_measurement.rs:111 *)
| AtTciState                   (* dpe_instance.rs:262 *)
| AtTciLocality                (* dpe_instance.rs:265 *)
| AtInitSupport                (* initialize_context.rs:66 *)
| AtInitFlags                  (* initialize_context.rs:75 *)
| AtInitKind                   (* initialize_context.rs:91 *)
| AtDeriveSupport              (* derive_context.rs:246 *)
| AtDeriveArgs                 (* derive_context.rs:260 *)
| AtDeriveLocality             (* derive_context.rs:279 *)
| AtDeriveRecursive            (* derive_context.rs:300 *)
| AtDeriveTciType              (* derive_context.rs:306 *)
| AtDeriveUnique               (* derive_context.rs:341 *)
| AtDeriveRetain               (* derive_context.rs:352 *)
| AtDeriveRefresh              (* derive_context.rs:353 *)
| AtDeriveExport               (* derive_context.rs:370 *)
| AtExportDestroy              (* derive_context.rs:404 *)
| AtDeriveSafe                 (* derive_context.rs:442 *)
| AtDeriveDefault              (* derive_context.rs:449 *)
| AtDestroyLocality            (* destroy_context.rs:37 *)
| AtDestroyRetired (i : nat)   (* destroy_context.rs:59, when looking at slot i *)
| AtDestroySlot (i : nat)      (* destroy_context.rs:79, for slot i *)
| AtRotateSupport              (* rotate_context.rs:92 *)
| AtRotateTarget               (* rotate_context.rs:101 *)
| AtRotateFree                 (* rotate_context.rs:109 *)
| AtRotateKind                 (* rotate_context.rs:120 *)
| AtSignType                   (* sign.rs:182 *)
| AtSignKey                    (* sign.rs:279 *)
| AtCertifyFormat              (* certify_key.rs:154 *)
| AtCertifyX509                (* certify_key.rs:155 *)
| AtCertifyAllow               (* certify_key.rs:158 *)
| AtCertifyCsr                 (* certify_key.rs:161 *)
| AtCertifyLocality            (* certify_key.rs:166 *)
| AtCertifyIsX509              (* certify_key.rs:219 *)
| AtCertifyIsCsr               (* certify_key.rs:230 *)
| AtCertKey                    (* x509.rs:2699 *)
| AtUpdateHandle.              (* update_context_measurement.rs:61 *)

Definition site_eq_dec (a b : site) : {a = b} + {a <> b}.
Proof. decide equality; apply Nat.eq_dec. Defined.

Definition faults := site -> bool.
Definition no_fault : faults := fun _ => false.
Definition fault_at (s : site) : faults := fun t => if site_eq_dec s t then true else false.

Section Checked.
  Variable f : faults.
  Variable cf : config.
  Variables C P : Type.
  Variable co : crypto_ops C.
  Variable po : platform_ops P.
  Notation M := (M C P).

  (** The way taken by a decision on [b]. *)
  Definition goes (s : site) (b : bool) : bool := if f s then negb b else b.

  (** [cfi_assert!(b)], [cfi_assert_eq], [cfi_assert_ne]. *)
  Definition rassert {A} (b : bool) (k : result A) : result A := if b then k else Crash CrashAssert.
  Definition assert (b : bool) : M unit := lift (rassert b (Ok tt)).

  (** destroy_context.rs:47-69. *)
  Fixpoint checked_retired (n : nat) (s : state) (parent : nat) (acc : N) : result N :=
    match n with
    | O => Crash CrashFuel
    | S n' =>
        if Nat.eqb parent ROOT then Ok acc
        else
          rbind (ok_or (get_ctx s parent) (InternalError DestroyParentIndexOob)) (fun pc =>
            let retired := ctx_state_eqb (c_state pc) Retired in
            let one := Nat.eqb (length (children_iter cf (c_children pc))) 1 in
            if goes (AtDestroyRetired parent) (retired && one)
            then rbind (children_add cf acc parent) (fun acc' =>
                   checked_retired n' s (c_parent pc) acc')
            else rassert (negb retired || negb one) (Ok acc))
    end.

  (** destroy_context.rs:77-85. *)
  Fixpoint checked_slots (to_destroy : N) (l : list (nat * context)) : result (list context) :=
    match l with
    | [] => Ok []
    | p :: l' =>
        let c := set_children (remove_children (c_children (snd p)) to_destroy) (snd p) in
        rbind (if goes (AtDestroySlot (fst p)) (has_child cf to_destroy (fst p))
               then Ok (ctx_destroy cf c)
               else rassert (Bool.eqb (has_child cf to_destroy (fst p)) false) (Ok c)) (fun c' =>
        rbind (checked_slots to_destroy l') (fun r => Ok (c' :: r)))
    end.

  (** destroy_context.rs:30-87. *)
  Definition checked_destroy_context (h : bytes) (s : state) (locality : N) : result state :=
    rbind (get_active_context_and_idx s h locality) (fun ci =>
      let (c, idx) := ci in
      if goes AtDestroyLocality (negb (N.eqb (c_locality c) locality)) then Err InvalidLocality
      else
        rassert (N.eqb (c_locality c) locality)
       (rbind (checked_retired (fuel cf) s (c_parent c) 0) (fun retired =>
        rbind (get_descendants cf (fuel cf) s c) (fun desc =>
        rbind (children_add cf desc idx) (fun d1 =>
        rbind (checked_slots (add_children d1 retired) (enumerate (st_contexts s))) (fun l =>
          Ok (set_contexts l s))))))).

  (** dpe_instance.rs:231-243. *)
  Definition checked_roll (at_ : site) (c : context) : M context :=
    if goes at_ (negb (handle_is_default (c_handle c))) then
      let! h := generate_new_handle C P co in ret (set_handle h c)
    else
      assert (handle_is_default (c_handle c)) ;; ret c.

  (** dpe_instance.rs:255-286. *)
  Definition checked_measurement (c : context) (measurement : bytes) (locality : N)
    : M context :=
    if goes AtTciState (negb (ctx_state_eqb (c_state c) Active)) then fail InvalidHandle
    else if goes AtTciLocality (negb (N.eqb (c_locality c) locality)) then fail InvalidLocality
    else
      assert (ctx_state_eqb (c_state c) Active) ;;
      assert (N.eqb (c_locality c) locality) ;;
      let! d := hash_all C P co [tci_cumulative (c_tci c); measurement] in
      if negb (Nat.eqb (length (digest_bytes d)) (length (tci_cumulative (c_tci c))))
      then fail (InternalError DigestLengthMismatch)
      else
        ret (set_tci (mkTci (tci_type (c_tci c)) (digest_bytes d) measurement
                            (tci_locality (c_tci c)) (tci_svn (c_tci c))) c).

  (** initialize_context.rs:55-130. *)
  Definition checked_init (flags locality : N) : M N :=
    let! s := get_st in
    let is_default := if_default flags in
    let is_sim := if_simulation flags in
    if goes AtInitSupport
         ((is_default && st_init s) || (is_sim && negb (sup_simulation (st_support s))))
    then fail ArgumentNotSupported
    else if goes AtInitFlags (negb (xorb is_default is_sim)) then fail InvalidArgument
    else
      assert (negb is_default || negb (st_init s)) ;;
      assert (negb is_sim || sup_simulation (st_support s)) ;;
      assert (xorb is_default is_sim) ;;
      let! idx := lift (ok_or (get_next_inactive_context_pos s) MaxTcis) in
      let! (ty, h) :=
        (if goes AtInitKind is_default then
           put_st (set_init true s) ;; ret (Normal, default_handle)
         else
           let! h := generate_new_handle C P co in ret (Simulation, h)) in
      let! old := st_get C P idx (InternalError InitContextIndexOob) in
      st_set C P idx
        (ctx_activate cf old
           {| aa_type := ty; aa_locality := locality; aa_handle := h;
              aa_tci_type := 0; aa_parent := ROOT; aa_x509 := true;
              aa_info := false; aa_dice := false; aa_export := true;
              aa_svn := 0; aa_recursive := is_default |})
        (InternalError InitContextIndexOob) ;;
      respond C P (new_handle_resp_bytes cf h).

  (** derive_context.rs:300-338. *)
  Definition checked_recursive (c : derive_cmd) (parent : nat) (target : N) : M N :=
    let! tmp := st_get C P parent (InternalError ContextIndexOob) in
    if goes AtDeriveTciType (negb (N.eqb (tci_type (c_tci tmp)) (dc_tci_type c)))
    then fail InvalidArgument
    else
      assert (N.eqb (tci_type (c_tci tmp)) (dc_tci_type c)) ;;
      let! tmp := checked_measurement tmp (dc_data c) target in
      let! tmp := checked_roll AtRoll tmp in
      st_assign C P parent tmp ;;
      respond C P (two_handle_resp_bytes cf (c_handle tmp) default_handle).

  (** derive_context.rs:346-368. *)
  Definition checked_tmp_parent (flags : N) (pc : context) : M context :=
    if goes AtDeriveRetain (df_retain_parent flags) then
      if goes AtDeriveRefresh (negb (handle_is_default (c_handle pc))) then
        let! h := generate_new_handle C P co in ret (set_handle h pc)
      else
        assert (df_retain_parent flags) ;;
        assert (handle_is_default (c_handle pc)) ;;
        ret pc
    else
      assert (negb (df_retain_parent flags)) ;;
      ret (set_handle invalid_handle (set_state Retired pc)).

  (** x509.rs:2681-2705: a call whose outcome is looked at before [?]. *)
  Definition attempt {A} (g : C -> (A + crypto_error) * C) : M (A + crypto_error) := fun w =>
    match g (w_c w) with
    | (r, c) => (Ok r, mkWorld (w_st w) c (w_p w) (w_out w))
    end.
  Definition succeeded {A B} (r : A + B) : bool := match r with inl _ => true | inr _ => false end.
  Definition look {A} (at_ : site) (r : A + crypto_error) : M A :=
    (if goes at_ (succeeded r) then assert (succeeded r) else assert (negb (succeeded r))) ;;
    match r with inl a => ret a | inr e => fail (CryptoErr e) end.
  Definition checked_subject_key (k : cert_kind) (a : cert_args) (d : digest)
    : M (pubkey * option bytes) :=
    if kind_exported k then
      let! h0 := crypto (co_derive_exported_cdi co d (ca_cdi_label a)) in
      let h := to_buf max_exported_cdi_size h0 in
      crypto (co_derive_key_pair_exported co h (ca_key_label a) (ca_context a)) ;;
      let! r := attempt (co_signer_public_key co) in
      let! pk := look AtCertKey r in
      ret (pk, Some h)
    else
      let! r := attempt (derive_pub_key C co d (ca_cdi_label a) (ca_key_label a) (ca_context a)) in
      let! pk := look AtCertKey r in
      ret (pk, None).

  (** x509.rs:2671-2816. *)
  Definition checked_create_cert (k : cert_kind) (a : cert_args) (off : nat) : M cert_result :=
    let! s0 := get_st in
    let! idx0 := lift (get_active_context_pos s0 (ca_handle a) (ca_locality a)) in
    let! d := compute_measurement_hash cf C P co po idx0 in
    let! pk_h := checked_subject_key k a d in
    let pk := fst pk_h in
    let! subject := get_subject_name C P co k pk in
    let! ski := get_subject_key_identifier C P co pk in
    let! aki := get_authority_key_identifier C P po in
    let! san := get_subject_alt_name C P po in
    let! s := get_st in
    let! idx := lift (get_active_context_pos s (ca_handle a) (ca_locality a)) in
    lift (tci_nodes_new cf idx (st_contexts s)) ;;
    let md := {| md_start := idx; md_contexts := st_contexts s; md_label := ca_ueid a;
                 md_is_ca := kind_exported k;
                 md_recursive := if kind_exported k then false else sup_recursive (st_support s);
                 md_ski := ski; md_aki := aki; md_san := san |} in
    let! v := platform (po_cert_validity po) in
    let! sid := platform (po_signer_identifier po) in
    let cb := sign_cb C co k a d (snd pk_h) in
    let! n :=
      (if kind_csr k then generate_csr cf C P (ca_critical a) off (cap_sid sid) subject pk md cb
       else
         let! issuer := get_issuer_name C P po in
         generate_cert cf C P (ca_critical a) off issuer (cap_validity v) subject pk md cb) in
    let! h :=
      (if kind_exported k
       then lift (ok_or (snd pk_h) (InternalError MissingExportedCdiHandle))
       else ret (repeat 0 max_exported_cdi_size)) in
    ret {| cr_size := n; cr_pubkey := pk; cr_exported := h |}.

  (** The parameter [cert_gen] of Commands.v, as in X509Cert.v. *)
  Definition checked_gen (k : cert_kind) (a : cert_args) (off : nat) (s : state) (c : C) (p : P)
             (out : bytes) : result cert_result * C * P * bytes :=
    match checked_create_cert k a off (mkWorld s c p out) with
    | (r, w) => (r, w_c w, w_p w, w_out w)
    end.

  (** derive_context.rs:370-431. *)
  Definition checked_export (c : derive_cmd) (parent : nat) (tmp_parent : context)
             (locality : N) : M N :=
    let! u := platform (po_ueid po) in
    let! ueid := lift (ok_or (ueid_get u) (PlatformErr PEInvalidUeid)) in
    let! s := get_st in
    let! r := run_cert C P checked_gen KindExported
                {| ca_handle := dc_handle c; ca_locality := locality;
                   ca_cdi_label := str_exported_cdi;
                   ca_key_label := exported_label (prof cf);
                   ca_context := exported_label (prof cf);
                   ca_ueid := ueid;
                   ca_critical := flag_dice_critical (st_flags s) |}
                exported_hdr_size in
    let! pc := (if negb (df_retain_parent (dc_flags c))
                then let! x := st_get C P parent (InternalError ContextIndexOob) in
                     ret (has_children (c_children x))
                else ret true) in
    (if goes AtExportDestroy (negb pc) then
       let! s := get_st in
       let! s' := lift (checked_destroy_context (dc_handle c) s locality) in
       put_st s'
     else st_set C P parent tmp_parent (InternalError ContextIndexOob)) ;;
    let! p := st_index C P parent in
    write_out 0 (exported_hdr_bytes cf invalid_handle (c_handle p)
                   (to_buf exported_cdi_size (cr_exported r)) (cr_size r)) ;;
    ret (N.of_nat exported_hdr_size + cr_size r).

  (** derive_context.rs:432-509. *)
  Definition checked_child (c : derive_cmd) (parent : nat) (tmp_parent : context)
             (target : N) : M N :=
    let flags := dc_flags c in
    let! s := get_st in
    let! child := lift (ok_or (get_next_inactive_context_pos s) MaxTcis) in
    let safe := safe_to_make_child s flags parent target in
    if goes AtDeriveSafe (negb safe) then fail InvalidArgument
    else
      assert safe ;;
      let! h := (if goes AtDeriveDefault (df_make_default flags)
                 then assert (df_make_default flags) ;; ret default_handle
                 else assert (negb (df_make_default flags)) ;; generate_new_handle C P co) in
      let! pc := st_get C P parent (InternalError ContextIndexOob) in
      let tmp_child :=
        ctx_activate cf (ctx_new cf)
          {| aa_type := c_type pc; aa_locality := target; aa_handle := h;
             aa_tci_type := dc_tci_type c; aa_parent := parent;
             aa_x509 := df_allow_x509 flags; aa_info := df_internal_info flags;
             aa_dice := df_internal_dice flags;
             aa_export := df_allow_export flags && c_export tmp_parent;
             aa_svn := dc_svn c;
             aa_recursive := df_allow_recursive flags && c_recursive tmp_parent |} in
      let! tmp_child := checked_measurement tmp_child (dc_data c) target in
      let! tmp_parent := lift (ctx_add_child cf tmp_parent child) in
      st_assign C P child tmp_child ;;
      st_assign C P parent tmp_parent ;;
      let! p := st_index C P parent in
      respond C P (two_handle_resp_bytes cf h (c_handle p)).

  (** derive_context.rs:228-510. *)
  Definition checked_derive (c : derive_cmd) (locality : N) : M N :=
    let flags := dc_flags c in
    let! s := get_st in
    let sup := st_support s in
    if goes AtDeriveSupport (derive_unsupported sup flags) then fail ArgumentNotSupported
    else
      let! (pc, parent) := lift (get_active_context_and_idx s (dc_handle c) locality) in
      if goes AtDeriveArgs (derive_bad_args pc flags) then fail InvalidArgument
      else
        let! target :=
          (if goes AtDeriveLocality (negb (df_change_locality flags))
           then assert (negb (df_change_locality flags)) ;; ret locality
           else assert (df_change_locality flags) ;; ret (dc_target_locality c)) in
        assert (sup_internal_info sup || negb (df_internal_info flags)) ;;
        assert (sup_internal_dice sup || negb (df_internal_dice flags)) ;;
        assert (sup_retain_parent sup || negb (df_retain_parent flags)) ;;
        assert (sup_x509 sup || negb (df_allow_x509 flags)) ;;
        assert (c_x509 pc || negb (df_allow_x509 flags)) ;;
        assert (negb (df_recursive flags) || negb (df_retain_parent flags)) ;;
        if goes AtDeriveRecursive (df_recursive flags) then checked_recursive c parent target
        else
          let! u := lift (tci_type_unique s (children_iter cf (c_children pc)) (dc_tci_type c)) in
          if goes AtDeriveUnique (negb u) then fail InvalidArgument
          else
            let! pc := st_get C P parent (InternalError ContextIndexOob) in
            let! tmp_parent := checked_tmp_parent flags pc in
            if goes AtDeriveExport (df_create_cert flags && df_export_cdi flags)
            then checked_export c parent tmp_parent locality
            else checked_child c parent tmp_parent target.

  (** destroy_context.rs:90-105. *)
  Definition checked_destroy (h : bytes) (locality : N) : M N :=
    let! s := get_st in
    let! s' := lift (checked_destroy_context h s locality) in
    put_st s' ;;
    respond C P (ok_hdr_bytes cf).

  (** rotate_context.rs:82-139. *)
  Definition checked_rotate (h : bytes) (flags locality : N) : M N :=
    let! s := get_st in
    if goes AtRotateSupport (negb (sup_rotate (st_support s))) then fail InvalidCommand
    else
      assert (sup_rotate (st_support s)) ;;
      let! idx := lift (get_active_context_pos s h locality) in
      (if goes AtRotateTarget (rf_target_default flags) then
         let taken := is_ok (get_active_context_pos s default_handle locality) in
         let others := other_non_default s locality idx in
         if goes AtRotateFree (taken || others) then fail InvalidArgument
         else assert (negb taken && negb others)
       else assert (negb (rf_target_default flags))) ;;
      let! nh := (if goes AtRotateKind (rf_target_default flags) then ret default_handle
                  else generate_new_handle C P co) in
      let! c := st_get C P idx (InternalError ContextIndexOob) in
      st_set C P idx (set_handle nh c) (InternalError ContextIndexOob) ;;
      respond C P (new_handle_resp_bytes cf nh).

  (** update_context_measurement.rs:51-135: no assertion of its own. *)
  Definition checked_update (c : update_cmd) (locality : N) : M N :=
    if goes AtUpdateHandle (handle_is_default (uc_parent_handle c)) then fail InvalidArgument
    else
      let! s := get_st in
      let! parent := lift (match get_active_context_pos s (uc_parent_handle c) locality with
                           | Err _ => Err InvalidParentLocality
                           | r => r end) in
      let! pc := st_get C P parent (InternalError ContextIndexOob) in
      let! child := lift (ok_or
          (find (fun i => match get_ctx s i with
                          | Some x => ctx_state_eqb (c_state x) Active
                                      && N.eqb (tci_type (c_tci x)) (uc_tci_type c)
                          | None => false
                          end) (children_iter cf (c_children pc)))
          InvalidArgument) in
      let! tmp_child := st_get C P child (InternalError ChildIndexOob) in
      let! tmp_child := checked_measurement tmp_child (uc_data c) (c_locality tmp_child) in
      let! tmp_parent := st_get C P parent (InternalError ContextIndexOob) in
      let! tmp_parent := checked_roll AtRollParent tmp_parent in
      st_set C P parent tmp_parent (InternalError ContextIndexOob) ;;
      let! tmp_child := checked_roll AtRoll tmp_child in
      st_set C P child tmp_child (InternalError ChildIndexOob) ;;
      respond C P (two_handle_resp_bytes cf (c_handle tmp_child) (c_handle tmp_parent)).

  (** sign.rs:264-288. *)
  Definition checked_do_sign (idx : nat) (label : bytes) (data : sign_data) : M signature :=
    let! d := compute_measurement_hash cf C P co po idx in
    crypto (co_derive_cdi co d str_DPE) ;;
    let! r := attempt (co_derive_key_pair co label (key_context (prof cf))) in
    look AtSignKey r ;;
    crypto (co_signer_sign co data).

  (** sign.rs:135-253. *)
  Definition checked_sign (c : sign_command) (locality : N) : M N :=
    let! (h, label, data) := lift (sign_inputs c) in
    let! s := get_st in
    let! idx := lift (get_active_context_pos s h locality) in
    let! ctx := st_get C P idx (InternalError ContextIndexOob) in
    if goes AtSignType (ctx_type_eqb (c_type ctx) Simulation) then fail InvalidArgument
    else
      assert (negb (ctx_type_eqb (c_type ctx) Simulation)) ;;
      let! sg := checked_do_sign idx label data in
      match signature_bytes cf sg with
      | None => fail InvalidArgument
      | Some sb =>
          let! ctx := st_index C P idx in
          let! ctx := checked_roll AtRoll ctx in
          st_assign C P idx ctx ;;
          respond C P (sign_resp_bytes cf (c_handle ctx) sb)
      end.

  (** certify_key.rs:129-243. *)
  Definition checked_certify (cmd : certify_command) (locality : N) : M N :=
    let c := certify_inner cmd in
    let p := certify_profile cmd in
    let x509 := N.eqb (ck_format c) 0 in
    let csr := N.eqb (ck_format c) 1 in
    let! s := get_st in
    let! idx := lift (get_active_context_pos s (ck_handle c) locality) in
    let! ctx := st_get C P idx (InternalError ContextIndexOob) in
    (if goes AtCertifyFormat x509 then
       if goes AtCertifyX509 (negb (sup_x509 (st_support s))) then fail ArgumentNotSupported
       else if goes AtCertifyAllow (negb (c_x509 ctx)) then fail InvalidArgument
       else ret tt
     else if goes AtCertifyCsr (csr && negb (sup_csr (st_support s)))
     then fail ArgumentNotSupported
     else ret tt) ;;
    if goes AtCertifyLocality (negb (N.eqb (c_locality ctx) locality)) then fail InvalidLocality
    else
      assert (negb x509 || sup_x509 (st_support s)) ;;
      assert (negb x509 || c_x509 ctx) ;;
      assert (negb csr || sup_csr (st_support s)) ;;
      assert (N.eqb (c_locality ctx) locality) ;;
      let args := {| ca_handle := ck_handle c; ca_locality := locality;
                     ca_cdi_label := str_DPE; ca_key_label := ck_label c;
                     ca_context := key_context (prof cf); ca_ueid := ck_label c;
                     ca_critical := flag_dice_critical (st_flags s) |} in
      let! r := (if goes AtCertifyIsX509 x509 then
                   assert x509 ;; run_cert C P checked_gen KindX509 args (certify_hdr_size p)
                 else if goes AtCertifyIsCsr csr then
                   assert csr ;; run_cert C P checked_gen KindCsr args (certify_hdr_size p)
                 else fail InvalidArgument) in
      let! ctx := st_index C P idx in
      let! ctx := checked_roll AtRoll ctx in
      st_assign C P idx ctx ;;
      match pubkey_bytes p (cr_pubkey r) with
      | None => fail InvalidArgument
      | Some pk =>
          write_out 0 (certify_hdr_bytes cf (c_handle ctx) pk (cr_size r)) ;;
          ret (N.of_nat (certify_hdr_size p) + cr_size r)
      end.

  (** commands/mod.rs:304-331. *)
  Definition checked_command (c : command) (locality : N) : M N :=
    match c with
    | CmdGetProfile => exec_get_profile cf C P po
    | CmdInitCtx flags => checked_init flags locality
    | CmdDeriveContext c => checked_derive c locality
    | CmdCertifyKey c => checked_certify c locality
    | CmdSign c => checked_sign c locality
    | CmdRotateCtx h flags => checked_rotate h flags locality
    | CmdDestroyCtx h => checked_destroy h locality
    | CmdGetCertificateChain off size => exec_get_chain cf C P po off size
    | CmdUpdateContextMeasurement c => checked_update c locality
    end.

  (** dpe_instance.rs:78-96. *)
  Definition checked_new : M unit :=
    let! s := get_st in
    if goes AtNewAuto (sup_auto_init (st_support s)) then
      let! loc := platform (po_auto_init_locality po) in
      with_out C P (repeat 0 28%nat) (checked_init (bit 30) (N.modulo loc (2 ^ 32))) ;; ret tt
    else assert (negb (sup_auto_init (st_support s))).

  (** dpe_instance.rs:109-135. *)
  Definition checked_new_auto_init (ty : N) (measurement : bytes) : M unit :=
    let! s := get_st in
    if goes AtAutoSupport (negb (sup_auto_init (st_support s))) then fail ArgumentNotSupported
    else
      assert (sup_auto_init (st_support s)) ;;
      checked_new ;;
      let! loc := platform (po_auto_init_locality po) in
      let loc := N.modulo loc (2 ^ 32) in
      let! s := get_st in
      let! idx := lift (get_active_context_pos s default_handle loc) in
      let! c := st_get C P idx (InternalError InitContextIndexOob) in
      let! c := checked_measurement c measurement loc in
      let t := c_tci c in
      st_assign C P idx (set_tci (mkTci ty (tci_cumulative t) (tci_current t)
                                        (tci_locality t) (tci_svn t)) c).

  (** commands/mod.rs:334-408 and dpe_instance.rs:160-186. *)
  Definition checked_execute (cmd : command) (locality : N) : M response :=
    let! (_, buf) := with_out C P (repeat 0 (response_size cf cmd)) (checked_command cmd locality) in
    lift (ok_or (read_exact cf cmd buf) (InternalError ResponseDeserializationFailed)).
  Definition checked_serialized (locality : N) (b : bytes) : M response :=
    let! cmd := lift (deserialize_command cf b) in
    fun w => match checked_execute cmd locality w with
             | (Err e, w') => (Ok (RespError (new_response_hdr cf e)), w')
             | r => r
             end.
End Checked.
