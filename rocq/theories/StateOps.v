(** StateOps.v -- child bitmaps, context look-up, descendants and the
    child-to-root iterator (dpe/src/context.rs, dpe/src/state.rs,
    [flags_iter] of dpe/src/dpe_instance.rs). *)
From Verif Require Import Base Errors Types.
Open Scope N_scope.

(** ** Bit iteration *)

(** u64::trailing_zeros on a positive number. *)
Fixpoint pos_ctz (p : positive) : nat :=
  match p with
  | xO p' => S (pos_ctz p')
  | _ => O
  end.
Definition trailing_zeros (v : N) : nat :=
  match v with
  | N0 => 64%nat
  | Npos p => pos_ctz p
  end.

(** dpe/src/dpe_instance.rs:416-427 [FlagsIter::next], iterated until it returns
    [None].  The first argument bounds the number of items (64 bits). *)
Fixpoint flags_iter_go (n : nat) (flags : N) : list nat :=
  match n with
  | O => []
  | S n' =>
      if N.eqb flags 0 then []
      else
        let idx := trailing_zeros flags in
        idx :: flags_iter_go n' (N.ldiff flags (N.shiftl 1 (N.of_nat idx)))
  end.

Definition u64_max : N := 0xFFFFFFFFFFFFFFFF.

(** dpe/src/dpe_instance.rs:405-410 [flags_iter]; the items in the order the
    iterator yields them.  The [assert!] at line 406 holds for every
    [config_ok] configuration, see [config_ok]. *)
Definition flags_iter (flags : N) (mx : nat) : list nat :=
  flags_iter_go 64 (N.land flags (N.shiftr u64_max (64 - N.of_nat mx))).

(** ** Children bitmaps (dpe/src/context.rs:224-279) *)

Section Cfg.
  Variable cf : config.

  (** context.rs:231-237 [Children::add_child]. *)
  Definition children_add (ch : N) (idx : nat) : result N :=
    if Nat.leb (max_handles cf) idx then Err (InternalError ChildrenBitmapIndexOob)
    else Ok (N.lor ch (N.shiftl 1 (N.of_nat idx))).

  (** context.rs:240-247 [is_empty], [has_children]. *)
  Definition children_empty (ch : N) : bool := N.eqb ch 0.
  Definition has_children (ch : N) : bool := negb (children_empty ch).

  (** context.rs:250-256 [has_child]. *)
  Definition has_child (ch : N) (idx : nat) : bool :=
    if Nat.leb (max_handles cf) idx then false
    else negb (N.eqb (N.land ch (N.shiftl 1 (N.of_nat idx))) 0).

  (** context.rs:259-261 [add_children]. *)
  Definition add_children (a b : N) : N := N.lor a b.

  (** context.rs:264-266 [remove_children]. *)
  Definition remove_children (a b : N) : N := N.ldiff a b.

  (** context.rs:269-271 [iter]. *)
  Definition children_iter (ch : N) : list nat := flags_iter ch (max_handles cf).

  (** context.rs:156-163 [Context::add_child]. *)
  Definition ctx_add_child (c : context) (idx : nat) : result context :=
    if Nat.leb (max_handles cf) idx then Err (InternalError ChildIndexOob)
    else rbind (children_add (c_children c) idx) (fun ch => Ok (set_children ch c)).

  (** ** Look-up (dpe/src/state.rs) *)

  (** Predicate of state.rs:130-132. *)
  Definition active_in (locality : N) (c : context) : bool :=
    ctx_state_eqb (c_state c) Active && N.eqb (c_locality c) locality.

  (** state.rs:121-155 [get_active_context_pos_internal]. *)
  Definition get_active_context_pos_internal (s : state) (h : bytes) (locality : N)
    : result nat :=
    let valid_localities :=
      filter (fun p => active_in locality (snd p)) (enumerate (st_contexts s)) in
    match valid_localities with
    | [] => Err InvalidLocality
    | _ =>
        let valid_both :=
          filter (fun p => handle_eqb (c_handle (snd p)) h) valid_localities in
        match valid_both with
        | [] => Err InvalidHandle
        | _ =>
            match find (fun p => ctx_state_eqb (c_state (snd p)) Active
                                 && handle_eqb (c_handle (snd p)) h
                                 && N.eqb (c_locality (snd p)) locality) valid_both with
            | Some (i, _) => Ok i
            | None => Err (InternalError ActiveContextNotFound)
            end
        end
    end.

  (** state.rs:89-99 [get_active_context_pos]. *)
  Definition get_active_context_pos (s : state) (h : bytes) (locality : N) : result nat :=
    rbind (get_active_context_pos_internal s h locality) (fun idx =>
      if Nat.leb (length (st_contexts s)) idx then Err (InternalError ContextIndexOob)
      else Ok idx).

  (** state.rs:107-119 [get_active_context_and_idx]. *)
  Definition get_active_context_and_idx (s : state) (h : bytes) (locality : N)
    : result (context * nat) :=
    rbind (get_active_context_pos s h locality) (fun idx =>
      rbind (ok_or (get_ctx s idx) (InternalError ContextIndexOob)) (fun c =>
        Ok (c, idx))).

  (** [Iterator::position]. *)
  Fixpoint position {A} (f : A -> bool) (l : list A) : option nat :=
    match l with
    | [] => None
    | x :: l' => if f x then Some O else option_map S (position f l')
    end.

  (** state.rs:157-161 [get_next_inactive_context_pos]. *)
  Definition get_next_inactive_context_pos (s : state) : option nat :=
    position (fun c => ctx_state_eqb (c_state c) Inactive) (st_contexts s).

  (** state.rs:191-193 [count_contexts]. *)
  Definition count_contexts (s : state) (f : context -> bool) : nat :=
    length (filter f (st_contexts s)).

  (** state.rs:170-184 [get_descendants].  Recursion on fuel; the Rust function
      recurses along the child links without a bound. *)
  Fixpoint get_descendants (n : nat) (s : state) (c : context) : result N :=
    match n with
    | O => Crash CrashFuel
    | S n' =>
        if ctx_state_eqb (c_state c) Inactive then Err InvalidHandle
        else
          fold_left
            (fun acc idx =>
               rbind acc (fun d =>
                 rbind (ok_or (get_ctx s idx) (InternalError DescendantIndexOob)) (fun child =>
                   rbind (get_descendants n' s child) (fun d' =>
                     Ok (add_children d d')))))
            (children_iter (c_children c)) (Ok (c_children c))
    end.

  (** ** Child-to-root iterator (context.rs:347-507) *)

  (** context.rs:347-354 [ChildToRootIter]; [contexts] is a separate argument. *)
  Record ctr_iter := mkIter {
    it_front : nat;
    it_back : nat;
    it_path_len : nat;
    it_done : bool;
    it_count : nat
  }.

  (** context.rs:395-410 [get_context].  On error the caller also sets [done]. *)
  Definition iter_get_context (l : list context) (idx : nat) : result context :=
    match nth_error l idx with
    | None => Err (InternalError ContextIndexOob)
    | Some c =>
        let valid_parent := Nat.leb (c_parent c) (max_handles cf - 1)
                            || Nat.eqb (c_parent c) ROOT in
        if negb valid_parent || ctx_state_eqb (c_state c) Inactive then Err InvalidHandle
        else Ok c
    end.

  (** context.rs:369-381: the loop of [ChildToRootIter::new].  Each round
      increments path_len and stops above MAX_HANDLES, so MAX_HANDLES + 1 rounds
      are enough; the recursion argument only makes this visible to Coq. *)
  Fixpoint iter_new_loop (n : nat) (l : list context) (curr path_len : nat)
    : result (nat * nat) :=
    match n with
    | O => Crash CrashFuel
    | S n' =>
        rbind (iter_get_context l curr) (fun c =>
          let path_len := S path_len in
          if Nat.ltb (max_handles cf) path_len
          then Err (InternalError TciNodeCountExceeded)
          else if Nat.eqb (c_parent c) ROOT then Ok (curr, path_len)
          else iter_new_loop n' l (c_parent c) path_len)
    end.

  (** context.rs:358-384 [ChildToRootIter::new]. *)
  Definition iter_new (leaf : nat) (l : list context) : result ctr_iter :=
    rbind (iter_new_loop (S (max_handles cf)) l leaf 0) (fun r =>
      Ok (mkIter leaf (fst r) (snd r) false 0)).

  Definition iter_set_done (it : ctr_iter) : ctr_iter :=
    mkIter (it_front it) (it_back it) (it_path_len it) true (it_count it).

  (** context.rs:436-460 [next]. *)
  Definition iter_next (l : list context) (it : ctr_iter)
    : option (result context) * ctr_iter :=
    if it_done it then (None, it)
    else if Nat.leb (it_path_len it) (it_count it) then (None, iter_set_done it)
    else if Nat.leb (max_handles cf) (it_count it) then (Some (Err MaxTcis), iter_set_done it)
    else
      match iter_get_context l (it_front it) with
      | Ok c =>
          (Some (Ok c),
           mkIter (c_parent c) (it_back it) (it_path_len it)
                  (Nat.eqb (c_parent c) ROOT) (S (it_count it)))
      | Err e => (Some (Err e), iter_set_done it)
      | Crash k => (Some (Crash k), iter_set_done it)
      end.

  (** context.rs:413-430 [is_node_on_path]; unbounded in Rust.  The flag in the
      result says whether a failing [get_context] set [done]. *)
  Fixpoint is_node_on_path (n : nat) (l : list context) (curr target : nat) : result bool :=
    match n with
    | O => Crash CrashFuel
    | S n' =>
        if Nat.eqb curr target then Ok true
        else rbind (iter_get_context l curr) (fun c =>
               if Nat.eqb (c_parent c) ROOT then Ok false
               else is_node_on_path n' l (c_parent c) target)
    end.

  (** context.rs:486-495: the search loop of [next_back]. *)
  Fixpoint find_on_path (l : list context) (front : nat) (cands : list nat)
    : result (option nat) :=
    match cands with
    | [] => Ok None
    | child :: cands' =>
        rbind (is_node_on_path (fuel cf) l front child) (fun b =>
          if b then Ok (Some child) else find_on_path l front cands')
    end.

  (** context.rs:464-506 [next_back]. *)
  Definition iter_next_back (l : list context) (it : ctr_iter)
    : option (result context) * ctr_iter :=
    if it_done it then (None, it)
    else if Nat.leb (it_path_len it) (it_count it) then (None, iter_set_done it)
    else if Nat.leb (max_handles cf) (it_count it) then (Some (Err MaxTcis), iter_set_done it)
    else
      match iter_get_context l (it_back it) with
      | Ok c =>
          if Nat.eqb (it_front it) (it_back it) then
            (Some (Ok c),
             mkIter (it_front it) (it_back it) (it_path_len it) true (S (it_count it)))
          else
            match find_on_path l (it_front it) (children_iter (c_children c)) with
            | Ok (Some child) =>
                (Some (Ok c),
                 mkIter (it_front it) child (it_path_len it) (it_done it) (S (it_count it)))
            | Ok None => (Some (Err (InternalError ParentChainIndexOob)), it)
            | Err e => (Some (Err e), iter_set_done it)
            | Crash k => (Some (Crash k), iter_set_done it)
            end
      | Err e => (Some (Err e), iter_set_done it)
      | Crash k => (Some (Crash k), iter_set_done it)
      end.

  (** A [for] loop over the iterator (forwards or, with [rev()], backwards)
      that stops at the first error ([let context = status?]): the contexts
      visited, in order.  At most MAX_HANDLES items are produced before the
      iterator returns [None]. *)
  Fixpoint iter_collect (back : bool) (n : nat) (l : list context) (it : ctr_iter)
    : result (list context) :=
    match n with
    | O => Crash CrashFuel
    | S n' =>
        match (if back then iter_next_back l it else iter_next l it) with
        | (None, _) => Ok []
        | (Some (Ok c), it') => rbind (iter_collect back n' l it') (fun r => Ok (c :: r))
        | (Some (Err e), _) => Err e
        | (Some (Crash k), _) => Crash k
        end
    end.
End Cfg.
