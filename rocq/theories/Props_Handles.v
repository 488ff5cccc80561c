(** Props_Handles.v -- properties of handles: C01, C02, C03, C10, C17, C39. *)
From Verif Require Import Base Errors Types StateOps Env Wire Instance Commands Lib Spec Exec
  Effects Forest History Contract Steps Reach Denials CommandSpecs HandleProofs Toy.
Local Open Scope nat_scope.

(** ** C01: only the owning locality with the live handle can address a context *)

(** A command presenting a handle that names no active context of the caller's
    locality does nothing at all (not even a call to the environment), and is
    refused: [denied] says InvalidLocality exactly when the locality owns no
    active context and InvalidHandle when it owns some; [early] lists the errors
    reported before the handle is looked at; UpdateContextMeasurement reports
    InvalidParentLocality instead. *)
Theorem C01_unowned_handle_refused :
  forall cf e cmd h loc w r w',
    exec_command cf (e_C e) (e_P e) (e_crypto e) (e_platform e) (e_cert e) cmd loc w = (r, w') ->
    presents cmd h -> (forall i, ~ names (w_st w) h loc i) ->
    w' = w /\
    exists er, r = Err er /\
      (denied (w_st w) loc er \/ early (w_st w) cmd er \/
       (er = InvalidParentLocality /\ exists u, cmd = CmdUpdateContextMeasurement u)).
Proof. intros; eapply command_denied; eassumption. Qed.
Print Assumptions C01_unowned_handle_refused.

(** Conversely, whenever a command that presents a handle changes anything or
    succeeds, that handle names an active context of the caller's locality. *)
Theorem C01_effect_needs_owner :
  forall cf e cmd h loc w r w',
    exec_command cf (e_C e) (e_P e) (e_crypto e) (e_platform e) (e_cert e) cmd loc w = (r, w') ->
    presents cmd h -> w' <> w \/ (exists n, r = Ok n) -> exists i, names (w_st w) h loc i.
Proof.
  intros cf e cmd h loc w r w' H Hp Hc.
  pose proof (lookup_spec (w_st w) h loc) as L.
  destruct (get_active_context_pos (w_st w) h loc) as [i|er|k] eqn:E; [exists i; apply L| |contradiction].
  exfalso.
  destruct (command_denied _ _ _ _ _ _ _ _ _ _ _ _ H Hp) as (K & er' & Hr & _).
  - intros i Hi. destruct er; try contradiction; [apply L in Hi; exact Hi|].
    destruct Hi as (c & Hc' & Ha & Hl & _). eapply L; eauto.
  - destruct Hc as [Hc|(n & Hn)]; [contradiction|congruence].
Qed.
Print Assumptions C01_effect_needs_owner.

(** Non-vacuity: a default context exists at locality 0; a caller at 0 with a
    wrong handle, and a caller at 5 with the right one. *)
Example C01_wrong_handle :
  presents (sign (Hn 5)) (Hn 5) /\
  (forall i, ~ names (toy_state [(init_default, 0%N)]) (Hn 5) 0 i) /\
  toy_result counting [(init_default, 0%N)] (sign (Hn 5)) 0 = Err InvalidHandle /\
  toy_result counting [(init_default, 0%N)] (sign H0) 5 = Err InvalidLocality /\
  toy_result counting [(init_default, 0%N)] (sign H0) 0 = Ok 92%N.
Proof.
  split; [reflexivity|]. split.
  - intros i (c & Hc & Ha & _ & Hh). do 4 (destruct i as [|i]; [vm_compute in Hc; inversion Hc; subst c; discriminate|]).
    destruct i; discriminate.
  - vm_compute. repeat split.
Qed.

(** ** C02: non-default handles are one-time-use *)

(** After a successful command that presented a non-default handle [h], no
    context carries [h] -- in any history whose random sources do not repeat
    values within one command.  For UpdateContextMeasurement, which draws the
    child's handle after the parent's [h] is gone, the random source must also
    not hand out [h] again. *)
Theorem C02_handle_consumed :
  forall cf (E : env -> Prop) G l s e cmd loc n s' h,
    config_ok cf -> (forall e, E e -> no_repeat (e_crypto e)) -> history cf E G l s ->
    executes cf e cmd loc s (Ok n) s' -> presents cmd h -> h <> repeat 0%N 16 ->
    (forall u, cmd <> CmdUpdateContextMeasurement u) \/
      (forall i c c', at_slot s i c -> at_slot s' i c' -> c_handle c <> c_handle c' -> c_handle c' <> h) ->
    forall loc' i, ~ names s' h loc' i.
Proof.
  intros cf E G l s e cmd loc n s' h Hcf HE Hh (c & p & o & c' & p' & o' & H) Hp Hn Hu.
  pose proof (history_wf cf Hcf _ _ _ _ Hh) as W. pose proof (handles_unique cf Hcf E G l s HE Hh) as U.
  apply (command_effect cf _ _ _ _ _ Hcf) in H; [|exact W]. cbn [w_st] in H.
  destruct H as [(n' & _ & He)|[N _]]; [|exfalso; eapply N; reflexivity].
  destruct cmd; try (eapply (effect_consumes cf Hcf); eauto; discriminate).
  cbn [effect presents] in *. subst h.
  destruct (update_consumes cf _ _ _ _ _ W U He) as [K|(i & x & x' & Hx & Hx' & K & K2 & _)]; [exact K|].
  exfalso. destruct Hu as [Hu|Hu]; [eapply Hu; reflexivity|]. eapply Hu; eauto. congruence.
Qed.
Print Assumptions C02_handle_consumed.

(** Presenting a consumed handle again has no effect, from whatever locality. *)
Theorem C02_replay_refused :
  forall cf (E : env -> Prop) G l s e cmd loc n s' h,
    config_ok cf -> (forall e, E e -> no_repeat (e_crypto e)) -> history cf E G l s ->
    executes cf e cmd loc s (Ok n) s' -> presents cmd h -> h <> repeat 0%N 16 ->
    (forall u, cmd <> CmdUpdateContextMeasurement u) ->
    forall e2 cmd2 loc2 r2 s2, presents cmd2 h -> executes cf e2 cmd2 loc2 s' r2 s2 ->
      s2 = s' /\ forall m, r2 <> Ok m.
Proof.
  intros cf E G l s e cmd loc n s' h Hcf HE Hh Hx Hp Hn Hu e2 cmd2 loc2 r2 s2 Hp2 (c & p & o & c' & p' & o' & H2).
  pose proof (C02_handle_consumed _ _ _ _ _ _ _ _ _ _ _ Hcf HE Hh Hx Hp Hn (or_introl Hu)) as K.
  apply command_denied with (h := h) in H2; auto. cbn [w_st] in H2.
  destruct H2 as (Hw & er & -> & _). inversion Hw. split; [reflexivity|discriminate].
Qed.
Print Assumptions C02_replay_refused.

(** The restriction for UpdateContextMeasurement is needed: with a source that
    hands out an old value the presented handle is valid again afterwards. *)
Definition recycling (n : N) : bytes + crypto_error :=
  if (n =? 0)%N then inl (Hn 1) else if (n =? 1)%N then inl (Hn 2)
  else if (n =? 2)%N then inl (Hn 3) else if (n =? 3)%N then inl (Hn 4) else inl (Hn 2).
Definition recycled_history : list (command * N) :=
  [(init_simulation, 0%N); (derive (Hn 1) (2 ^ 29) 7, 0%N)].
Theorem C02_update_refuted :
  exists s e u loc n s',
    reachable toy_cf s /\ executes toy_cf e (CmdUpdateContextMeasurement u) loc s (Ok n) s' /\
    uc_parent_handle u <> repeat 0%N 16 /\ exists i, names s' (uc_parent_handle u) loc i.
Proof.
  exists (toy_state_with recycling recycled_history), (toy_env_with recycling (PkEcdsa256 [1%N] [2%N])).
  exists {| uc_parent_handle := Hn 2; uc_data := data 200; uc_reserved := 0; uc_tci_type := 7; uc_reserved_svn := 0 |}.
  exists 0%N, 44%N, (toy_state_with recycling (recycled_history ++ [(update (Hn 2) 7, 0%N)])).
  split; [apply toy_reachable; unfold recycled_history; toy_wf|]. split.
  - pose proof (toy_executes recycling recycled_history (update (Hn 2) 7) 0) as X.
    replace (toy_result recycling recycled_history (update (Hn 2) 7) 0) with (@Ok N 44%N) in X by (vm_compute; reflexivity).
    exact X.
  - split; [discriminate|]. exists 1. vm_compute. eexists; repeat split; reflexivity.
Qed.
Print Assumptions C02_update_refuted.

(** A default handle is not consumed by CertifyKey, Sign, recursive derivation,
    parent-retaining derivation or any query, whatever the outcome. *)
Theorem C02_default_handle_kept :
  forall cf e cmd loc s r s' loc' i,
    config_ok cf -> wf cf s -> executes cf e cmd loc s r s' -> leaves_default cmd ->
    names s (repeat 0%N 16) loc' i -> names s' (repeat 0%N 16) loc' i.
Proof.
  intros cf e cmd loc s r s' loc' i Hcf W (c & p & o & c' & p' & o' & H) Hl Hn.
  apply (command_effect cf _ _ _ _ _ Hcf) in H; [|exact W]. cbn [w_st] in H.
  destruct H as [(n' & _ & He)|[_ [->|[[_ He]|[(u & -> & He)|(x & _ & _ & He)]]]]]; auto;
    try (eapply (effect_default cf); eauto; fail).
  destruct He as (q & qc & qc' & Hd & Hf & Hq & (_ & _ & Ho) & _).
  eapply names_frame; eauto. intros ->.
  destruct Hf as [(y & Hy & _ & _ & Hhy) _]. destruct Hn as (z & Hz & _ & _ & Hhz).
  unfold at_slot in *. congruence.
Qed.
Print Assumptions C02_default_handle_kept.

(** Non-vacuity: simulation context with handle 1, rotated; then handle 1 is
    presented again; a default handle is used twice. *)
Example C02_rotate_then_replay :
  (exists h, history toy_cf (fun e => no_repeat (e_crypto e)) any_command h (toy_state [(init_simulation, 0%N)])) /\
  toy_result counting [(init_simulation, 0%N)] (CmdRotateCtx (Hn 1) 0) 0 = Ok 28%N /\
  names (toy_state [(init_simulation, 0%N)]) (Hn 1) 0 0 /\
  toy_result counting [(init_simulation, 0%N); (CmdRotateCtx (Hn 1) 0, 0%N)] (CmdDestroyCtx (Hn 1)) 0 = Err InvalidHandle /\
  toy_result counting [(init_simulation, 0%N); (CmdRotateCtx (Hn 1) 0, 0%N)] (CmdDestroyCtx (Hn 2)) 0 = Ok 12%N.
Proof.
  split. { apply toy_history; [exact toy_no_repeat|toy_wf|intros; exact I]. }
  vm_compute. repeat split. eexists; repeat split; reflexivity.
Qed.

(** ** C03: live non-default handles are pairwise distinct *)
Theorem C03_handles_distinct :
  forall cf (E : env -> Prop) G l s,
    config_ok cf -> (forall e, E e -> no_repeat (e_crypto e)) -> history cf E G l s ->
    forall i j c d, at_slot s i c -> at_slot s j d -> c_state c = Active -> c_state d = Active ->
      c_handle c = c_handle d -> c_handle c <> repeat 0%N 16 -> i = j.
Proof. intros cf E G l s Hcf HE H. exact (handles_unique cf Hcf E G l s HE H). Qed.
Print Assumptions C03_handles_distinct.

(** Without the proviso: one DeriveContext with RETAIN_PARENT hands out the same
    new handle to parent and child when the source repeats itself. *)
Definition repeating (n : N) : bytes + crypto_error :=
  if (n =? 0)%N then inl (Hn 1) else inl (Hn 2).
Theorem C03_any_source_refuted :
  exists s i j c d, reachable toy_cf s /\ at_slot s i c /\ at_slot s j d /\
    c_state c = Active /\ c_state d = Active /\ c_handle c = c_handle d /\
    c_handle c <> repeat 0%N 16 /\ i <> j.
Proof.
  exists (toy_state_with repeating recycled_history), 0, 1.
  eexists; eexists. split; [apply toy_reachable; unfold recycled_history; toy_wf|].
  split; [vm_compute; reflexivity|]. split; [vm_compute; reflexivity|].
  vm_compute. repeat split; discriminate.
Qed.
Print Assumptions C03_any_source_refuted.

(** Non-vacuity: two simulation roots, a child, all with different handles. *)
Example C03_three_contexts :
  let l := [(init_simulation, 0%N); (init_simulation, 3%N); (derive (Hn 1) (2 ^ 29) 7, 0%N)] in
  (exists h, history toy_cf (fun e => no_repeat (e_crypto e)) any_command h (toy_state l)) /\
  map c_handle (st_contexts (toy_state l)) = [Hn 3; Hn 2; Hn 4; repeat 0%N 16] /\
  map c_state (st_contexts (toy_state l)) = [Active; Active; Active; Inactive].
Proof.
  split. { apply toy_history; [exact toy_no_repeat|toy_wf|intros; exact I]. }
  vm_compute. split; reflexivity.
Qed.

(** ** C10: a default handle excludes every other active handle of its locality *)
Theorem C10_default_alone :
  forall cf E loc l s,
    config_ok cf -> history cf E (init_when_empty loc) l s ->
    forall i j c d, at_slot s i c -> at_slot s j d -> c_state c = Active -> c_state d = Active ->
      c_locality c = loc -> c_locality d = loc -> c_handle c = repeat 0%N 16 -> i = j.
Proof. intros cf E loc l s Hcf H. exact (default_alone cf Hcf loc E l s H). Qed.
Print Assumptions C10_default_alone.

(** One step: only InitializeContext can break the exclusivity. *)
Theorem C10_preserved_except_init :
  forall cf e cmd loc s r s' l,
    config_ok cf -> wf cf s -> command_wf cf cmd -> u32 loc ->
    executes cf e cmd loc s r s' -> (forall f, cmd <> CmdInitCtx f) ->
    (forall i j c d, at_slot s i c -> at_slot s j d -> c_state c = Active -> c_state d = Active ->
       c_locality c = l -> c_locality d = l -> c_handle c = repeat 0%N 16 -> i = j) ->
    forall i j c d, at_slot s' i c -> at_slot s' j d -> c_state c = Active -> c_state d = Active ->
       c_locality c = l -> c_locality d = l -> c_handle c = repeat 0%N 16 -> i = j.
Proof.
  intros cf e cmd loc s r s' l Hcf W Wc Wl H Hi A.
  apply (executes_changes cf e Hcf (empty_first l)) in H; auto.
  - change (alone l s'). change (alone l s) in A.
    assert (K : wf cf s' /\ alone l s'); [|apply K].
    revert W A. unfold changes in H. induction H as [x y H|x|x y z _ IH1 _ IH2]; intros W A; auto.
    + split; [eapply change_wf; eauto|eapply change_alone; eauto].
    + destruct IH1; auto.
  - intros f Ef. exfalso. eapply Hi; eauto.
Qed.
Print Assumptions C10_preserved_except_init.

(** InitializeContext does not look at the locality: a default context can be
    initialised next to an active simulation context. *)
Theorem C10_all_histories_refuted :
  exists s i j c d, reachable toy_cf s /\ at_slot s i c /\ at_slot s j d /\
    c_state c = Active /\ c_state d = Active /\ c_locality c = c_locality d /\
    c_handle c = repeat 0%N 16 /\ i <> j.
Proof.
  exists (toy_state [(init_simulation, 0%N); (init_default, 0%N)]), 1, 0.
  eexists; eexists. split; [apply toy_reachable; toy_wf|].
  split; [vm_compute; reflexivity|]. split; [vm_compute; reflexivity|].
  vm_compute. repeat split; discriminate.
Qed.
Print Assumptions C10_all_histories_refuted.

(** Non-vacuity: default root, default child at another locality. *)
Example C10_two_localities :
  let l := [(init_default, 0%N); (derive_to H0 (2 ^ 29 + 2 ^ 28 + 2 ^ 27) 7 4, 0%N)] in
  (exists h, history toy_cf any_env (init_when_empty 0) h (toy_state l)) /\
  map c_handle (st_contexts (toy_state l)) = [H0; H0; H0; H0] /\
  map c_locality (st_contexts (toy_state l)) = [0%N; 4%N; 0%N; 0%N] /\
  map c_state (st_contexts (toy_state l)) = [Active; Active; Inactive; Inactive].
Proof.
  split.
  - apply toy_history; [exact I|toy_wf|].
    intros l1 cl l2 E f Ef _. destruct l1 as [|a [|b [|? ?]]]; inversion E; subst; cbn in Ef; try discriminate.
    right. intros i c Hc Ha. do 4 (destruct i as [|i]; [vm_compute in Hc; inversion Hc; subst c; discriminate|]).
    destruct i; discriminate.
  - vm_compute. repeat split; reflexivity.
Qed.

(** ** C17: RotateContextHandle changes one handle and nothing else *)
Theorem C17_rotate_effect :
  forall cf e h f loc s n s',
    config_ok cf -> wf cf s -> executes cf e (CmdRotateCtx h f) loc s (Ok n) s' ->
    exists i c c',
      first_slot (names s h loc) i /\ at_slot s i c /\ supports s ROTATE_CONTEXT /\
      only_slots (eq i) s s' /\ at_slot s' i c' /\ same_but_handle c c' /\
      (N.testbit f 31 = true ->
         c_handle c' = repeat 0%N 16 /\ h <> repeat 0%N 16 /\
         forall j d, at_slot s j d -> c_state d = Active -> c_locality d = loc -> j = i) /\
      (N.testbit f 31 = false -> fresh_handle s (c_handle c')).
Proof.
  intros cf e h f loc s n s' Hcf W (c & p & o & c' & p' & o' & H).
  apply (command_effect cf _ _ _ _ _ Hcf) in H; [|exact W].
  destruct H as [(n' & _ & He)|[N _]]; [exact He|exfalso; eapply N; reflexivity].
Qed.
Print Assumptions C17_rotate_effect.

Theorem C17_unsupported_rejected :
  forall cf e h f loc s r s', executes cf e (CmdRotateCtx h f) loc s r s' ->
    ~ supports s ROTATE_CONTEXT -> r = Err InvalidCommand /\ s' = s.
Proof.
  intros cf e h f loc s r s' (c & p & o & c' & p' & o' & H) Hs.
  apply rotate_refused in H as [-> Hw]; [|exact Hs]. inversion Hw. auto.
Qed.
Print Assumptions C17_unsupported_rejected.

(** Non-vacuity: rotating a simulation handle to the default one. *)
Example C17_rotate_to_default :
  let l := [(init_simulation, 3%N)] in
  wf toy_cf (toy_state l) /\
  toy_result counting l (CmdRotateCtx (Hn 1) (2 ^ 31)) 3 = Ok 28%N /\
  map c_handle (st_contexts (toy_state l)) = [Hn 1; H0; H0; H0] /\
  map c_handle (st_contexts (toy_state (l ++ [(CmdRotateCtx (Hn 1) (2 ^ 31), 3%N)]))) = [H0; H0; H0; H0].
Proof.
  split. { apply (reachable_wf toy_cf toy_cf_ok). apply toy_reachable. toy_wf. }
  vm_compute. repeat split; reflexivity.
Qed.

(** ** C39: handle generation is bounded and fresh *)

(** [draws] records the calls to the random source: [l] are the values returned
    (cut to 16 bytes).  At most 8 calls are made; the handle returned is the last
    value drawn and is neither the default handle nor stored in any slot, while
    all values before it were; failure is the source's own error, or exhaustion
    after 8 unusable values.  Nothing but the random source's state changes. *)
Theorem C39_generate_new_handle :
  forall C P (co : crypto_ops C) (w : world C P) r w',
    generate_new_handle C P co w = (r, w') ->
    w_st w' = w_st w /\ w_p w' = w_p w /\ w_out w' = w_out w /\
    exists l e, draws C co (w_c w) l e (w_c w') /\
      match r with
      | Ok h => e = None /\ exists l0, l = l0 ++ [h] /\ length l <= 8 /\
                Forall (taken (w_st w)) l0 /\ ~ taken (w_st w) h
      | Err er =>
          Forall (taken (w_st w)) l /\
          ((exists ce, e = Some ce /\ er = CryptoErr ce /\ length l < 8) \/
           (e = None /\ length l = 8 /\ er = InternalError HandleGenerationExhausted))
      | Crash _ => False
      end.
Proof. intros C P co w r w' H. exact (gen_loop_drawn C P co 8 w r w' H). Qed.
Print Assumptions C39_generate_new_handle.

Example C39_exhaustion :
  fst (generate_new_handle toy_c unit (toy_crypto stuck)
         (toy_run (toy_env_with stuck (PkEcdsa256 [1%N] [2%N])) [(init_simulation, 0%N)] toy_w0))
    = Err (InternalError HandleGenerationExhausted) /\
  fst (generate_new_handle toy_c unit (toy_crypto stuck) toy_w0) = Ok (repeat 7%N 16).
Proof. vm_compute. split; reflexivity. Qed.
