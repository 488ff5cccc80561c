(** Validation.v -- the state validator (dpe/src/validation.rs). *)
From Verif Require Import Base Errors Types StateOps.
Open Scope N_scope.

Section Validation.
  Variable cf : config.

  Definition verr {A} (e : validation_error) : result A := Err (ValidationErr e).

  (** Run checks in order, stopping at the first error ([?]). *)
  Fixpoint all_ok {A} (f : A -> result unit) (l : list A) : result unit :=
    match l with
    | [] => Ok tt
    | x :: l' => rbind (f x) (fun _ => all_ok f l')
    end.

  (** validation.rs:158-177 [check_support]. *)
  Definition check_support (sup : N) (c : context) : result unit :=
    if ctx_type_eqb (c_type c) Simulation && negb (sup_simulation sup)
    then verr SimulationNotSupported
    else if c_dice c && negb (sup_internal_dice sup) then verr InternalDiceNotSupported
    else if c_info c && negb (sup_internal_info sup) then verr InternalInfoNotSupported
    else if negb (Nat.eqb (c_parent c) ROOT) && negb (sup_x509 sup) && c_x509 c
    then verr AllowX509NotSupported
    else Ok tt.

  (** validation.rs:180-195 [validate_inactive_context]. *)
  Definition validate_inactive_context (c : context) : result unit :=
    if negb (Nat.eqb (c_parent c) ROOT) then verr InactiveContextInvalidParent
    else if has_children (c_children c) then verr InactiveContextWithChildren
    else if negb (tci_eqb (c_tci c) (tci_new cf)) then verr InactiveContextWithMeasurement
    else if c_dice c || c_x509 c || c_info c then verr InactiveContextWithFlagSet
    else Ok tt.

  (** validation.rs:198-238 [check_children_and_parent]. *)
  Definition check_children_and_parent (s : state) (idx : nat) (c : context) : result unit :=
    rbind
      (if Nat.leb (max_handles cf) (c_parent c) && negb (Nat.eqb (c_parent c) ROOT)
       then verr ParentDoesNotExist
       else if negb (Nat.eqb (c_parent c) ROOT) then
         match get_ctx s (c_parent c) with
         | None => verr ParentDoesNotExist
         | Some p =>
             if ctx_state_eqb (c_state p) Inactive then verr InactiveParent
             else if negb (has_child cf (c_children p) idx) then verr ParentChildLinksCorrupted
             else Ok tt
         end
       else Ok tt)
      (fun _ =>
         all_ok (fun ch =>
                   match get_ctx s ch with
                   | None => verr ChildDoesNotExist
                   | Some cc =>
                       if ctx_state_eqb (c_state cc) Inactive then verr InactiveChild
                       else if negb (Nat.eqb (c_parent cc) idx)
                       then verr ParentChildLinksCorrupted
                       else Ok tt
                   end)
                (flags_iter (c_children c) 64)).

  (** validation.rs:242-264 [check_context_handles_per_locality]: for one
      locality, running counts of default and non-default active contexts. *)
  Fixpoint locality_counts (loc : N) (l : list context) (ndef nnon : nat) : result unit :=
    match l with
    | [] => Ok tt
    | c :: l' =>
        let '(ndef, nnon) :=
          if active_in loc c then
            if handle_is_default (c_handle c) then (S ndef, nnon) else (ndef, S nnon)
          else (ndef, nnon) in
        if Nat.ltb 1 ndef then verr MultipleDefaultContexts
        else if Nat.ltb 0 ndef && Nat.ltb 0 nnon then verr MixedContextLocality
        else locality_counts loc l' ndef nnon
    end.
  Definition check_context_handles_per_locality (s : state) : result unit :=
    all_ok (fun c => locality_counts (c_locality c) (st_contexts s) 0 0) (st_contexts s).

  (** validation.rs:110-155 [validate_dpe_state]. *)
  Definition validate_context (s : state) (p : nat * context) : result unit :=
    let (i, c) := p in
    rbind (check_support (st_support s) c) (fun _ =>
    rbind (match c_state c with
           | Inactive => validate_inactive_context c
           | Active =>
               if ctx_type_eqb (c_type c) Normal && negb (st_init s)
               then verr DpeNotMarkedInitialized
               else check_children_and_parent s i c
           | Retired =>
               rbind (check_children_and_parent s i c) (fun _ =>
                 if Nat.eqb (length (children_iter cf (c_children c))) 0
                 then verr DanglingRetiredContext else Ok tt)
           end) (fun _ =>
    if negb (N.eqb (c_locality c) (tci_locality (c_tci c))) then verr LocalityMismatch
    else Ok tt)).
  Definition validate_dpe_state (s : state) : result unit :=
    if negb (N.eqb (st_marker s) state_magic) then verr InvalidMarker
    else if negb (N.eqb (st_version s) state_version) then verr VersionMismatch
    else
      rbind (all_ok (validate_context s) (enumerate (st_contexts s))) (fun _ =>
        check_context_handles_per_locality s).

  (** validation.rs:273-279: in-degrees counted from the child bitmaps. *)
  Definition add_in_degree (deg : result (list nat)) (ch : nat) : result (list nat) :=
    rbind deg (fun d =>
      match nth_error d ch with
      | None => verr ChildDoesNotExist
      | Some n => Ok (upd d ch (S n))
      end).
  Definition in_degrees (s : state) : result (list nat) :=
    fold_left (fun deg c => fold_left add_in_degree (children_iter cf (c_children c)) deg)
              (st_contexts s) (Ok (repeat 0%nat (max_handles cf))).

  (** validation.rs:314-346 [detect_invalid_subtree].  Recursion on fuel; every
      call that recurses marks a new slot as seen, so MAX_HANDLES + 1 levels are
      enough (proved). *)
  Fixpoint detect_invalid_subtree (n : nat) (s : state) (idx : nat) (seen : list bool)
           (ty : ctx_type) : result (list bool) :=
    match n with
    | O => Crash CrashFuel
    | S n' =>
        match get_ctx s idx, nth_error seen idx with
        | Some c, Some sn =>
            if Nat.leb (max_handles cf) idx || ctx_state_eqb (c_state c) Inactive || sn
            then verr CyclesInTree
            else if negb (ctx_type_eqb (c_type c) ty)
            then verr MixedContextTypeConnectedComponents
            else
              fold_left (fun acc ch =>
                           rbind acc (fun sn => detect_invalid_subtree n' s ch sn ty))
                        (children_iter cf (c_children c)) (Ok (upd seen idx true))
        | _, _ => verr BadContextState
        end
    end.

  (** validation.rs:288-298: depth-first search from every root. *)
  Fixpoint forest_dfs (s : state) (l : list (nat * (context * nat))) (seen : list bool)
           (trees : nat) : result (list bool * nat) :=
    match l with
    | [] => Ok (seen, trees)
    | (i, (c, deg)) :: l' =>
        if Nat.eqb deg 0 && negb (ctx_state_eqb (c_state c) Inactive) then
          let trees := if ctx_type_eqb (c_type c) Normal then S trees else trees in
          rbind (detect_invalid_subtree (S (max_handles cf)) s i seen (c_type c)) (fun seen' =>
            forest_dfs s l' seen' trees)
        else forest_dfs s l' seen trees
    end.

  (** validation.rs:268-312 [validate_context_forest]. *)
  Definition validate_context_forest (s : state) : result unit :=
    rbind (in_degrees s) (fun deg =>
      if existsb (Nat.ltb 1) deg then verr ChildWithMultipleParents
      else
        rbind (forest_dfs s (enumerate (combine (st_contexts s) deg))
                          (repeat false (max_handles cf)) 0) (fun r =>
          let (seen, trees) := r in
          if Nat.ltb 1 trees then verr MultipleNormalConnectedComponents
          else if existsb (fun p => negb (ctx_state_eqb (c_state (fst p)) Inactive)
                                    && negb (snd p))
                          (combine (st_contexts s) seen)
          then verr CyclesInTree
          else Ok tt)).

  (** validation.rs:100-106 [validate_dpe]. *)
  Definition validate_dpe (s : state) : result unit :=
    rbind (validate_dpe_state s) (fun _ => validate_context_forest s).
End Validation.
