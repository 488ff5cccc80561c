(** Instance.v -- the helpers of [DpeInstance] (dpe/src/dpe_instance.rs):
    handle generation, TCI extension, measurement hash, profile query. *)
From Verif Require Import Base Errors Types StateOps Env Wire.
Open Scope N_scope.
Open Scope dpe_scope.

Section Instance.
  Variable cf : config.
  Variables C P : Type.
  Variable co : crypto_ops C.
  Variable po : platform_ops P.
  Notation M := (M C P).

  (** [env.state().contexts.get(i).ok_or(e)?] *)
  Definition st_get (i : nat) (e : dpe_error) : M context :=
    let! s := get_st in lift (ok_or (get_ctx s i) e).

  (** [env.state().contexts[i]] (panics when out of range). *)
  Definition st_index (i : nat) : M context :=
    let! s := get_st in lift (index_or_crash (get_ctx s i)).

  (** [*env.state().contexts.get_mut(i).ok_or(e)? = c] *)
  Definition st_set (i : nat) (c : context) (e : dpe_error) : M unit :=
    let! s := get_st in
    if Nat.ltb i (length (st_contexts s)) then put_st (put_ctx s i c) else fail e.

  (** [env.state().contexts[i] = c] (panics when out of range). *)
  Definition st_assign (i : nat) (c : context) : M unit :=
    let! s := get_st in
    if Nat.ltb i (length (st_contexts s)) then put_st (put_ctx s i c)
    else lift (Crash CrashIndex).

  (** dpe_instance.rs:62 MAX_NEW_HANDLE_ATTEMPTS. *)
  Definition max_new_handle_attempts : nat := 8%nat.

  (** dpe_instance.rs:209-221, the loop of [generate_new_handle]. *)
  Fixpoint gen_handle_loop (n : nat) : M bytes :=
    match n with
    | O => fail (InternalError HandleGenerationExhausted)
    | S n' =>
        let! r := crypto (co_rand_bytes co handle_size) in
        let h := to_buf handle_size r in
        let! s := get_st in
        if negb (handle_is_default h)
           && negb (existsb (fun c => handle_eqb (c_handle c) h) (st_contexts s))
        then ret h
        else gen_handle_loop n'
    end.

  (** dpe_instance.rs:205-223 [generate_new_handle]. *)
  Definition generate_new_handle : M bytes := gen_handle_loop max_new_handle_attempts.

  (** dpe_instance.rs:231-243 [roll_onetime_use_handle]; returns the context
      with its new handle. *)
  Definition roll_handle (c : context) : M context :=
    if negb (handle_is_default (c_handle c)) then
      let! h := generate_new_handle in ret (set_handle h c)
    else ret c.

  (** crypto/src/lib.rs:551-573 [hash_all] / [with_hasher]. *)
  Fixpoint hash_updates (l : list bytes) : M unit :=
    match l with
    | [] => ret tt
    | b :: l' => crypto (co_hash_update co b) ;; hash_updates l'
    end.
  Definition hash_all (l : list bytes) : M digest :=
    crypto (co_hasher co) ;;
    crypto (co_hash_initialize co) ;;
    hash_updates l ;;
    crypto (co_hash_finish co).

  (** dpe_instance.rs:255-286 [add_tci_measurement]; returns the updated
      context. *)
  Definition add_tci_measurement (c : context) (measurement : bytes) (locality : N)
    : M context :=
    if negb (ctx_state_eqb (c_state c) Active) then fail InvalidHandle
    else if negb (N.eqb (c_locality c) locality) then fail InvalidLocality
    else
      let! d := hash_all [tci_cumulative (c_tci c); measurement] in
      if negb (Nat.eqb (length (digest_bytes d)) (length (tci_cumulative (c_tci c))))
      then fail (InternalError DigestLengthMismatch)
      else
        ret (set_tci (mkTci (tci_type (c_tci c)) (digest_bytes d) measurement
                            (tci_locality (c_tci c)) (tci_svn (c_tci c))) c).

  (** dpe_instance.rs:137-150 [get_profile], as response bytes. *)
  Definition get_profile (support : N) : M bytes :=
    let! vid := platform (po_vendor_id po) in
    let! sku := platform (po_vendor_sku po) in
    ret (get_profile_resp_bytes cf support vid sku).

  (** dpe_instance.rs:296-320 [serialize_internal_input_info].  The two slice
      errors cannot occur: 32 + 4 = INTERNAL_INPUT_INFO_SIZE (lib.rs:59). *)
  Definition internal_input_info (support : N) : M bytes :=
    let! p := get_profile support in
    ret (p ++ le_bytes 4 (profile_id (prof cf))).

  (** One call of [Platform::get_certificate_chain] with the given scratch
      buffer; the answer is not turned into an error here. *)
  Definition cert_chain_call (off size : N) (buf : bytes)
    : M ((N + platform_error) * bytes) := fun w =>
    match po_certificate_chain po off size buf (w_p w) with
    | (r, b, p) =>
        (Ok (match r with inl n => inl (N.modulo n (2 ^ 32)) | inr e => inr e end,
             to_buf (N.to_nat max_chunk_size) b),
         mkWorld (w_st w) (w_c w) p (w_out w))
    end.

  (** dpe_instance.rs:345-360: the hashing loop over the child-to-root iterator;
      returns the accumulated "uses internal info / dice" flags. *)
  Fixpoint hash_nodes (n : nat) (l : list context) (it : ctr_iter) (info dice : bool)
    : M (bool * bool) :=
    match n with
    | O => lift (Crash CrashFuel)
    | S n' =>
        match iter_next cf l it with
        | (None, _) => ret (info, dice)
        | (Some (Err e), _) => fail e
        | (Some (Crash k), _) => lift (Crash k)
        | (Some (Ok c), it') =>
            crypto (co_hash_update co (tci_bytes (c_tci c))) ;;
            crypto (co_hash_update co [if c_x509 c then 1 else 0]) ;;
            hash_nodes n' l it' (info || c_info c) (dice || c_dice c)
        end
    end.

  (** dpe_instance.rs:380-391: hashing the certificate chain chunk by chunk
      until the platform reports an error.  The u32 [offset += len] is modelled
      as a panic on overflow; the loop has no bound of its own. *)
  Fixpoint hash_cert_chain (n : nat) (offset : N) (buf : bytes) : M unit :=
    match n with
    | O => lift (Crash CrashFuel)
    | S n' =>
        let! r := cert_chain_call offset max_chunk_size buf in
        match r with
        | (inr _, _) => ret tt
        | (inl len, buf') =>
            if N.ltb max_chunk_size len
            then fail (InternalError CertChainChunkSliceOob)
            else
              crypto (co_hash_update co (firstn (N.to_nat len) buf')) ;;
              if N.leb (2 ^ 32) (offset + len) then lift (Crash CrashOverflow)
              else hash_cert_chain n' (offset + len) buf'
        end
    end.

  (** dpe_instance.rs:331-395 [compute_measurement_hash]. *)
  Definition compute_measurement_hash (start : nat) : M digest :=
    crypto (co_hasher co) ;;
    crypto (co_hash_initialize co) ;;
    let! s := get_st in
    let! it := lift (iter_new cf start (st_contexts s)) in
    let! (info, dice) := hash_nodes (fuel cf) (st_contexts s) it false false in
    (if info : bool then
       let! b := internal_input_info (st_support s) in
       crypto (co_hash_update co b)
     else ret tt) ;;
    (if dice : bool then
       hash_cert_chain (fuel cf) 0 (repeat 0 (N.to_nat max_chunk_size))
     else ret tt) ;;
    crypto (co_hash_finish co).
End Instance.
