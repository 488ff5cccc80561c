(** Props_Commands.v -- what commands do and leave alone: C04, C12, C13, C33-C38, C41. *)
From Verif Require Import Base Errors Types StateOps Env Wire Instance Commands Lib Spec Exec
  Effects Forest DestroyProofs History Contract Steps Reach Frame Denials CommandSpecs TreeProofs Responses Toy.
Local Open Scope nat_scope.

(** ** C04: a failing command has no effect *)

(** Whatever the back ends do, a command that does not succeed leaves the state
    exactly as it was, but for three situations: (a) the response does not fit
    the caller's buffer, and then the state is that of the completed command;
    (b) UpdateContextMeasurement could not draw the child's new handle, and then
    only the parent's handle has been renewed; (c) CertifyKey's certificate was
    issued for a key of the wrong kind, and then only the handle was renewed. *)
Theorem C04_error_atomicity :
  forall cf e cmd loc s r s',
    config_ok cf -> wf cf s -> executes cf e cmd loc s r s' -> (forall n, r <> Ok n) ->
    s' = s \/
    (r = Err InvalidResponseBuf /\ effect cf (e_crypto e) cmd loc s s') \/
    (exists u, cmd = CmdUpdateContextMeasurement u /\ update_parent u loc s s') \/
    (exists c h, cmd = CmdCertifyKey c /\ presents cmd h /\ r = Err InvalidArgument /\ rolled_only h loc s s').
Proof.
  intros cf e cmd loc s r s' Hcf W (c & p & o & c' & p' & o' & H) N.
  apply (command_effect cf _ _ _ _ _ Hcf) in H; [|exact W]. cbn [w_st] in H.
  destruct H as [(n & -> & _)|[_ [H|[H|[H|(x & -> & Hr & h & Hp & He)]]]]]; auto.
  - exfalso. eapply N. reflexivity.
  - right; right; right. exists x, h. auto.
Qed.
Print Assumptions C04_error_atomicity.

(** With room for the fixed part of the response, situation (a) is impossible. *)
Theorem C04_with_room :
  forall cf e cmd loc w r w',
    config_ok cf -> wf cf (w_st w) -> keeps_size (e_cert e) -> fixed_size cf cmd <= length (w_out w) ->
    exec_command cf (e_C e) (e_P e) (e_crypto e) (e_platform e) (e_cert e) cmd loc w = (r, w') ->
    (forall n, r <> Ok n) ->
    w_st w' = w_st w \/
    (exists u, cmd = CmdUpdateContextMeasurement u /\ update_parent u loc (w_st w) (w_st w')) \/
    (exists c h, cmd = CmdCertifyKey c /\ presents cmd h /\ r = Err InvalidArgument /\
                 rolled_only h loc (w_st w) (w_st w')).
Proof.
  intros cf e cmd loc w r w' Hcf W K L H N.
  destruct (command_room cf Hcf _ _ _ _ _ K _ _ _ _ _ W L H N) as [X|[X|(c & -> & X & h & Y & Z)]]; auto.
  right; right. exists c, h. auto.
Qed.
Print Assumptions C04_with_room.

(** The plain claim "an error means nothing changed" is false: one witness for
    each situation. *)
Definition parent_and_child : list (command * N) :=
  [(init_simulation, 0%N); (derive (Hn 1) (2 ^ 29) 7, 0%N)].
Theorem C04_plain_refuted :
  (exists e loc f s s', reachable toy_cf s /\
     executes toy_cf e (CmdInitCtx f) loc s (Err InvalidResponseBuf) s' /\ s' <> s) /\
  (exists e loc u s er s', reachable toy_cf s /\
     executes toy_cf e (CmdUpdateContextMeasurement u) loc s (Err er) s' /\ s' <> s) /\
  (exists e loc c s s', reachable toy_cf s /\
     executes toy_cf e (CmdCertifyKey c) loc s (Err InvalidArgument) s' /\ s' <> s).
Proof.
  split; [|split].
  - exists toy_env, 0%N, (2 ^ 30)%N, (toy_state []). eexists.
    split; [apply toy_reachable; toy_wf|]. split.
    + exists toy_c0, tt, (repeat 0%N 27). eexists; eexists; eexists. vm_compute. reflexivity.
    + discriminate.
  - exists (toy_env_with (failing_after 4) (PkEcdsa256 [1%N] [2%N])), 0%N.
    exists {| uc_parent_handle := Hn 2; uc_data := data 200; uc_reserved := 0; uc_tci_type := 7; uc_reserved_svn := 0 |}.
    exists (toy_state_with (failing_after 4) parent_and_child), (CryptoErr CENotImplemented).
    exists (toy_state_with (failing_after 4) (parent_and_child ++ [(update (Hn 2) 7, 0%N)])).
    split; [apply toy_reachable; unfold parent_and_child; toy_wf|]. split.
    + pose proof (toy_executes (failing_after 4) parent_and_child (update (Hn 2) 7) 0) as X.
      replace (toy_result (failing_after 4) parent_and_child (update (Hn 2) 7) 0)
        with (@Err N (CryptoErr CENotImplemented)) in X by (vm_compute; reflexivity).
      exact X.
    + vm_compute. discriminate.
  - exists (toy_env_with counting (PkEcdsa384 [1%N] [2%N])), 0%N.
    exists (CertifyP256 {| ck_handle := Hn 1; ck_flags := 0; ck_format := 1; ck_label := data 3 |}).
    exists (toy_state [(init_simulation, 0%N)]). eexists.
    split; [apply toy_reachable; toy_wf|]. split.
    + exists {| tc_n := 1; tc_acc := []; tc_cdi := []; tc_key := [] |}, tt, toy_buf. eexists; eexists; eexists.
      vm_compute. reflexivity.
    + discriminate.
Qed.
Print Assumptions C04_plain_refuted.

(** Non-vacuity of the main theorems: failures at three different points, with
    nothing changed. *)
Example C04_failures :
  let l := [(init_simulation, 0%N); (derive (Hn 1) (2 ^ 29) 7, 0%N)] in
  reachable toy_cf (toy_state l) /\
  toy_result counting l (derive (Hn 2) (2 ^ 29) 7) 0 = Err InvalidArgument /\
  toy_state (l ++ [(derive (Hn 2) (2 ^ 29) 7, 0%N)]) = toy_state l /\
  toy_result (failing_after 3) l (CmdRotateCtx (Hn 3) 0) 0 = Err (CryptoErr CENotImplemented) /\
  toy_state_with (failing_after 3) (l ++ [(CmdRotateCtx (Hn 3) 0, 0%N)]) = toy_state l /\
  fixed_size toy_cf (derive (Hn 2) (2 ^ 29) 7) <= length toy_buf.
Proof. split; [apply toy_reachable; toy_wf|]. vm_compute. repeat split; try reflexivity. repeat constructor. Qed.
Example C04_keeps_size : keeps_size (e_cert toy_env).
Proof.
  intros k a off s c p out r c' p' out' H. cbn in H. unfold toy_cert in H.
  destruct (Nat.leb_spec (off + 4) (length out)) as [L|L]; inversion H; [|reflexivity].
  unfold overwrite. rewrite !app_length, firstn_length, skipn_length. cbn [length]. lia.
Qed.

(** ** C12: DeriveContext creates exactly one child *)
Theorem C12_one_child :
  forall cf e d loc s n s',
    config_ok cf -> wf cf s -> executes cf e (CmdDeriveContext d) loc s (Ok n) s' ->
    N.testbit (dc_flags d) 24 = false -> N.testbit (dc_flags d) 23 = false ->
    child_spec cf (e_crypto e) d loc s s'.
Proof.
  intros cf e d loc s n s' Hcf W (c & p & o & c' & p' & o' & H) A1 A2.
  apply (command_effect cf _ _ _ _ _ Hcf) in H; [|exact W].
  destruct H as [(n' & _ & He)|[N _]]; [|exfalso; eapply N; reflexivity].
  cbn [effect w_st] in He. rewrite A1, A2 in He. exact He.
Qed.
Print Assumptions C12_one_child.

(** Non-vacuity: a child with every optional attribute, and a retired parent. *)
Example C12_two_children :
  let l := [(init_default, 0%N)] in
  let d1 := derive_to H0 (2 ^ 31 + 2 ^ 30 + 2 ^ 29 + 2 ^ 27 + 2 ^ 26 + 2 ^ 25 + 2 ^ 21) 7 4 in
  let d2 := derive H0 (2 ^ 28) 8 in
  reachable toy_cf (toy_state (l ++ [(d1, 0%N)])) /\
  toy_result counting l d1 0 = Ok 44%N /\ toy_result counting (l ++ [(d1, 0%N)]) d2 0 = Ok 44%N /\
  map c_state (st_contexts (toy_state (l ++ [(d1, 0%N); (d2, 0%N)]))) = [Retired; Active; Active; Inactive] /\
  map c_locality (st_contexts (toy_state (l ++ [(d1, 0%N); (d2, 0%N)]))) = [0; 4; 0; 0]%N /\
  map c_children (st_contexts (toy_state (l ++ [(d1, 0%N); (d2, 0%N)]))) = [6; 0; 0; 0]%N.
Proof. split; [apply toy_reachable; toy_wf|]. vm_compute. repeat split; reflexivity. Qed.

(** ** C13: measurement updates extend exactly one context *)
Theorem C13_recursive :
  forall cf e d loc s n s',
    config_ok cf -> wf cf s -> executes cf e (CmdDeriveContext d) loc s (Ok n) s' ->
    N.testbit (dc_flags d) 24 = true -> recursive_spec cf (e_crypto e) d loc s s'.
Proof.
  intros cf e d loc s n s' Hcf W (c & p & o & c' & p' & o' & H) A.
  apply (command_effect cf _ _ _ _ _ Hcf) in H; [|exact W].
  destruct H as [(n' & _ & He)|[N _]]; [|exfalso; eapply N; reflexivity].
  cbn [effect w_st] in He. rewrite A in He. exact He.
Qed.
Print Assumptions C13_recursive.

Theorem C13_update :
  forall cf e u loc s n s',
    config_ok cf -> wf cf s -> executes cf e (CmdUpdateContextMeasurement u) loc s (Ok n) s' ->
    update_spec cf (e_crypto e) u loc s s'.
Proof.
  intros cf e u loc s n s' Hcf W (c & p & o & c' & p' & o' & H).
  apply (command_effect cf _ _ _ _ _ Hcf) in H; [|exact W].
  destruct H as [(n' & _ & He)|[N _]]; [|exfalso; eapply N; reflexivity]. exact He.
Qed.
Print Assumptions C13_update.

(** The child that UpdateContextMeasurement reaches is determined by its type:
    the parent has no other live child with it. *)
Theorem C13_update_target_unique :
  forall cf s p i j c d ty,
    wf cf s -> p <> ROOT -> at_slot s i c -> at_slot s j d -> child_of s p i -> child_of s p j ->
    tci_type (c_tci c) = ty -> tci_type (c_tci d) = ty -> i = j.
Proof.
  intros cf s p i j c d ty W Hp Hi Hj (x & Hx & Lx & Px) (y & Hy & Ly & Py) <- T.
  assert (x = c) by (unfold at_slot in *; congruence). assert (y = d) by (unfold at_slot in *; congruence).
  subst. eapply (wf_siblings _ _ W); eauto; congruence.
Qed.
Print Assumptions C13_update_target_unique.

Example C13_updates :
  let l := [(init_simulation, 0%N); (derive (Hn 1) (2 ^ 29) 7, 0%N)] in
  let m := l ++ [(update (Hn 2) 7, 0%N)] in
  toy_result counting l (update (Hn 2) 7) 0 = Ok 44%N /\
  map (fun c => firstn 1 (tci_current (c_tci c))) (st_contexts (toy_state m)) = [[0]; [200]; [0]; [0]]%N /\
  toy_result counting [(init_default, 0%N)] (derive H0 (2 ^ 24) 0) 0 = Ok 44%N.
Proof. vm_compute. repeat split; reflexivity. Qed.

(** ** C33: exporting a CDI *)
Theorem C33_export :
  forall cf e d loc s n s',
    config_ok cf -> wf cf s -> executes cf e (CmdDeriveContext d) loc s (Ok n) s' ->
    N.testbit (dc_flags d) 23 = true -> export_spec cf d loc s s'.
Proof.
  intros cf e d loc s n s' Hcf W (c & p & o & c' & p' & o' & H) A.
  apply (command_effect cf _ _ _ _ _ Hcf) in H; [|exact W].
  destruct H as [(n' & _ & He)|[N _]]; [|exfalso; eapply N; reflexivity].
  cbn [effect w_st] in He. destruct (N.testbit (dc_flags d) 24) eqn:B.
  - exfalso. destruct He as (i & x & y & (_ & _ & _ & _ & G & _) & _).
    destruct (G B) as (_ & _ & _ & G4). congruence.
  - rewrite A in He. exact He.
Qed.
Print Assumptions C33_export.

(** No context is added or moved, no measurement changes. *)
Theorem C33_no_new_context :
  forall cf e d loc s n s' i c',
    config_ok cf -> wf cf s -> executes cf e (CmdDeriveContext d) loc s (Ok n) s' ->
    N.testbit (dc_flags d) 23 = true -> at_slot s' i c' -> live c' ->
    exists c, at_slot s i c /\ live c /\ same_identity c c' /\ c_tci c' = c_tci c.
Proof.
  intros cf e d loc s n s' i c' Hcf W H A Hi L.
  destruct (C33_export _ _ _ _ _ _ _ Hcf W H A) as (p & pc & (Hf & Hpc & _) & _ & D). clear H.
  assert (Lpc : live pc).
  { destruct Hf as [(x & Hx & Ax & _) _]. unfold at_slot in *. unfold live. congruence. }
  assert (Gen : forall pc', only_slots (eq p) s s' -> at_slot s' p pc' -> same_identity pc pc' /\ c_tci pc' = c_tci pc ->
            exists c, at_slot s i c /\ live c /\ same_identity c c' /\ c_tci c' = c_tci c).
  { intros pc' (_ & _ & Ho) Hp' [S T]. destruct (Nat.eq_dec p i) as [<-|Ne].
    - exists pc. assert (c' = pc') by (unfold at_slot in *; congruence). subst. auto.
    - exists c'. split; [unfold at_slot; rewrite <- (Ho i Ne); exact Hi|]. split; [exact L|].
      split; [unfold same_identity; auto 20|reflexivity]. }
  destruct (N.testbit (dc_flags d) 29).
  - destruct D as (pc' & O & Hp' & (S1 & S2 & S3 & S4 & S5 & S6 & S7 & S8 & S9 & S10 & S11) & _).
    eapply Gen; eauto. split; [|exact S1]. unfold same_identity. rewrite S1. auto 20.
  - destruct (N.eqb (c_children pc) 0).
    + destruct D as (_ & Hlen & Hall).
      destruct (nth_error (st_contexts s) i) as [c|] eqn:E.
      2:{ apply nth_error_None in E. apply nth_error_lt in Hi. lia. }
      destruct (Hall i c E) as (x & Hx & K1 & K2). assert (x = c') by (unfold at_slot in *; congruence). subst x.
      destruct (doomed_dec cf Hcf s p (wf_forest _ _ W) ltac:(exists pc; auto) i) as [Dm|Dm].
      * exfalso. destruct (K1 Dm) as (B & _). apply L. apply B.
      * destruct (K2 Dm) as [(S1 & S2 & S3 & S4 & S5 & S6 & S7 & S8 & S9 & S10 & S11) _].
        exists c. split; [exact E|]. split; [unfold live in *; congruence|].
        split; [|exact S2]. unfold same_identity. rewrite S2. auto 20.
    + destruct D as (pc' & O & Hp' & _ & _ & _ & S & T). eapply Gen; eauto.
Qed.
Print Assumptions C33_no_new_context.

(** Non-vacuity: the three outcomes for the parent: kept, removed, retired. *)
Definition export_flags : N := 2 ^ 23 + 2 ^ 22.
Example C33_three_outcomes :
  let s l := map c_state (st_contexts (toy_state l)) in
  let i := (init_default, 0%N) in
  toy_result counting [i] (derive H0 (export_flags + 2 ^ 29) 7) 0 = Ok 84%N /\
  s [i; (derive H0 (export_flags + 2 ^ 29) 7, 0%N)] = [Active; Inactive; Inactive; Inactive] /\
  toy_result counting [i] (derive H0 export_flags 7) 0 = Ok 84%N /\
  s [i; (derive H0 export_flags 7, 0%N)] = [Inactive; Inactive; Inactive; Inactive] /\
  let m := [i; (derive_to H0 (2 ^ 29 + 2 ^ 27) 7 5, 0%N)] in
  toy_result counting m (derive H0 export_flags 8) 0 = Ok 84%N /\
  s (m ++ [(derive H0 export_flags 8, 0%N)]) = [Retired; Active; Inactive; Inactive].
Proof. vm_compute. repeat split; reflexivity. Qed.

(** ** C34: unsupported features are unreachable *)

(** Requests for a feature the instance lacks. *)
Definition lacks (s : state) (cmd : command) : Prop :=
  match cmd with
  | CmdInitCtx f => N.testbit f 31 = true /\ ~ supports s SIMULATION
  | CmdDeriveContext d => unsupported_option s (dc_flags d)
  | CmdRotateCtx _ _ => ~ supports s ROTATE_CONTEXT
  | CmdCertifyKey (CertifyP256 c) | CmdCertifyKey (CertifyP384 c) | CmdCertifyKey (CertifyMldsa87 c) =>
      (ck_format c = 0%N /\ ~ supports s X509) \/ (ck_format c = 1%N /\ ~ supports s CSR)
  | _ => False
  end.
Theorem C34_refused :
  forall cf e cmd loc w r w',
    exec_command cf (e_C e) (e_P e) (e_crypto e) (e_platform e) (e_cert e) cmd loc w = (r, w') ->
    lacks (w_st w) cmd ->
    w' = w /\ exists er, r = Err er /\
      match cmd with
      | CmdRotateCtx _ _ => er = InvalidCommand
      | CmdCertifyKey _ => er = ArgumentNotSupported \/ denied (w_st w) loc er
      | _ => er = ArgumentNotSupported
      end.
Proof.
  intros cf e cmd loc w r w' H U. destruct cmd; try contradiction; cbn [lacks] in U.
  - destruct (init_refused _ _ _ _ _ _ _ _ _ _ _ H (or_introl U)) as [-> ->]. eauto.
  - destruct (derive_refused _ _ _ _ _ _ _ _ _ _ _ H U) as [-> ->]. eauto.
  - assert (V : (ck_format (certify_inner c) = 0%N /\ ~ supports (w_st w) X509) \/
                (ck_format (certify_inner c) = 1%N /\ ~ supports (w_st w) CSR)) by (destruct c; exact U).
    destruct (certify_refused _ _ _ _ _ _ _ _ _ _ _ H ltac:(tauto)) as (-> & er & -> & D).
    split; [reflexivity|]. exists er. split; [reflexivity|]. destruct D as [D|D]; [auto|].
    left. destruct V as [[V _]|[V _]]; rewrite V in D; exact D.
  - destruct (rotate_refused _ _ _ _ _ _ _ _ _ _ _ _ H U) as [-> ->]. eauto.
Qed.
Print Assumptions C34_refused.

Theorem C34_auto_init_refused :
  forall cf e ty m w r w',
    dpe_new_auto_init cf (e_C e) (e_P e) (e_crypto e) (e_platform e) ty m w = (r, w') ->
    ~ supports (w_st w) AUTO_INIT -> r = Err ArgumentNotSupported /\ w' = w.
Proof. intros; eapply new_auto_init_refused; eassumption. Qed.
Print Assumptions C34_auto_init_refused.

(** No reachable state uses a feature its support mask lacks ... *)
Theorem C34_unused :
  forall cf s i c,
    config_ok cf -> reachable cf s -> at_slot s i c ->
    (c_type c = Simulation -> supports s SIMULATION) /\
    (c_info c = true -> supports s INTERNAL_INFO) /\
    (c_dice c = true -> supports s INTERNAL_DICE) /\
    (c_x509 c = true -> c_parent c <> ROOT -> supports s X509).
Proof.
  intros cf s i c Hcf R Hi. pose proof (wf_slot _ _ (reachable_wf cf Hcf s R) i c Hi) as K.
  split; [apply (so_simulation _ _ _ K)|]. split; [apply (so_info _ _ _ K)|].
  split; [apply (so_dice _ _ _ K)|apply (so_x509 _ _ _ K)].
Qed.
Print Assumptions C34_unused.

(** ... and no command changes the mask (or the flags). *)
Theorem C34_mask_kept :
  forall cf e cmd loc s r s',
    config_ok cf -> wf cf s -> command_wf cf cmd -> u32 loc -> executes cf e cmd loc s r s' ->
    st_support s' = st_support s /\ st_flags s' = st_flags s.
Proof.
  intros cf e cmd loc s r s' Hcf W Wc Wl H.
  apply (executes_changes cf e Hcf anywhere) in H; auto using any_allowed.
  apply changes_globals in H. tauto.
Qed.
Print Assumptions C34_mask_kept.

(** Non-vacuity: an instance supporting nothing but retained parents. *)
Example C34_no_features :
  let s := state_new toy_cf (2 ^ 19) 0 in
  lacks s init_simulation /\ lacks s (derive H0 (2 ^ 24) 7) /\ lacks s (derive H0 (2 ^ 22) 7) /\
  lacks s (CmdRotateCtx H0 0) /\ lacks s (certify H0 0) /\ lacks s (certify H0 1) /\
  ~ lacks s (derive H0 (2 ^ 29) 7).
Proof. cbn [lacks derive certify init_simulation]; unfold unsupported_option, supports; vm_compute; intuition discriminate. Qed.

(** ** C35: queries do not modify the state *)
Theorem C35_pure_queries :
  forall cf e cmd loc s r s',
    executes cf e cmd loc s r s' ->
    match cmd with CmdGetProfile | CmdGetCertificateChain _ _ => True | _ => False end -> s' = s.
Proof.
  intros cf e cmd loc s r s' (c & p & o & c' & p' & o' & H) A. destruct cmd; try contradiction; cbn [exec_command] in H.
  - apply exec_get_profile_inv in H as [[[K _] _]|(bs & K & _)]; exact K.
  - apply exec_get_chain_inv in H as [[[K _] _]|(bs & K & _)]; exact K.
Qed.
Print Assumptions C35_pure_queries.

(** Sign and CertifyKey, whatever the outcome: nothing changes but the handle of
    the addressed context. *)
Theorem C35_only_the_handle :
  forall cf e cmd loc s r s',
    config_ok cf -> wf cf s -> executes cf e cmd loc s r s' ->
    match cmd with CmdSign _ | CmdCertifyKey _ => True | _ => False end ->
    s' = s \/ exists h, presents cmd h /\ rolled_only h loc s s'.
Proof.
  intros cf e cmd loc s r s' Hcf W (c & p & o & c' & p' & o' & H) A.
  apply (command_effect cf _ _ _ _ _ Hcf) in H; [|exact W]. cbn [w_st] in H.
  assert (K : s' = s \/ effect cf (e_crypto e) cmd loc s s').
  { destruct H as [(n & _ & H)|[_ [H|[[_ H]|[(u & -> & _)|(x & _ & _ & H)]]]]]; auto. contradiction. }
  destruct K as [K|K]; [auto|]. right. destruct cmd; try contradiction; exact K.
Qed.
Print Assumptions C35_only_the_handle.

Example C35_queries :
  let l := [(init_simulation, 0%N)] in
  toy_result counting l (certify (Hn 1) 1) 0 = Ok 100%N /\
  map c_handle (st_contexts (toy_state (l ++ [(certify (Hn 1) 1, 0%N)]))) = [Hn 2; H0; H0; H0] /\
  toy_result counting [(init_default, 0%N)] (sign H0) 0 = Ok 92%N /\
  toy_state [(init_default, 0%N); (sign H0, 0%N)] = toy_state [(init_default, 0%N)].
Proof. vm_compute. repeat split; reflexivity. Qed.

(** ** C36: auto-initialisation *)

(** The only context is an active, default, normal root in slot 0, owned by
    [loc], with the given measurement record. *)
Definition auto_initialised (cf : config) (sup fl loc ty : N) (cum cur : bytes) (s : state) : Prop :=
  st_support s = sup /\ st_flags s = fl /\ st_init s = true /\ length (st_contexts s) = max_handles cf /\
  at_slot s 0 {| c_handle := repeat 0%N 16; c_tci := mkTci ty cum cur loc 0;
                 c_children := 0; c_locality := loc; c_parent := ROOT; c_type := Normal;
                 c_state := Active; c_info := false; c_dice := false; c_x509 := true;
                 c_export := true; c_recursive := true |} /\
  forall i c, i <> 0 -> at_slot s i c -> c_state c = Inactive.

Lemma auto_state_spec cf sup fl loc ty cum cur : config_ok cf ->
  auto_initialised cf sup fl loc ty cum cur (auto_state cf sup fl (auto_context loc ty cum cur)).
Proof.
  intros Hcf. assert (L : 0 < max_handles cf) by (destruct Hcf; lia).
  unfold auto_initialised, auto_state. cbn. repeat split.
  - rewrite length_upd, repeat_length. reflexivity.
  - eapply at_put_same with (c := ctx_new cf). cbn. apply (new_slot cf sup fl). auto.
  - intros i c Hi Hc. apply at_put_iff in Hc as [(<- & _)|[_ Hc]]; [contradiction|].
    apply (new_slot cf sup fl) in Hc as [_ ->]. reflexivity.
Qed.

Theorem C36_new :
  forall cf e sup fl c p out r w',
    config_ok cf ->
    dpe_new cf (e_C e) (e_P e) (e_crypto e) (e_platform e) (mkWorld (state_new cf sup fl) c p out) = (r, w') ->
    w_out w' = out /\
    ((N.testbit sup AUTO_INIT = false /\ r = Ok tt /\ w_st w' = state_new cf sup fl) \/
     (N.testbit sup AUTO_INIT = true /\ r <> Ok tt /\ w_st w' = state_new cf sup fl) \/
     (N.testbit sup AUTO_INIT = true /\ r = Ok tt /\
      exists a p', po_auto_init_locality (e_platform e) p = (inl a, p') /\
        auto_initialised cf sup fl (a mod 2 ^ 32) 0
          (repeat 0%N (tci_size cf)) (repeat 0%N (tci_size cf)) (w_st w'))).
Proof.
  intros cf e sup fl c p out r w' Hcf H. apply (dpe_new_fresh cf e sup fl) in H; [|reflexivity].
  destruct H as [H1 [[H2 H3]|(H2 & H3 & a & p' & H4 & _ & H5)]]; (split; [exact H1|]).
  - destruct (N.testbit sup AUTO_INIT) eqn:B.
    + right; left. split; [reflexivity|]. split; [intros X; apply H3 in X; discriminate|exact H2].
    + left. split; [reflexivity|]. split; [apply H3; reflexivity|exact H2].
  - right; right. split; [exact H2|]. split; [exact H3|]. exists a, p'. split; [exact H4|].
    rewrite H5. apply auto_state_spec; exact Hcf.
Qed.
Print Assumptions C36_new.

Theorem C36_new_measured :
  forall cf e sup fl ty m c p out r w',
    config_ok cf ->
    dpe_new_auto_init cf (e_C e) (e_P e) (e_crypto e) (e_platform e) ty m
                      (mkWorld (state_new cf sup fl) c p out) = (r, w') ->
    let z := repeat 0%N (tci_size cf) in
    (r <> Ok tt /\ w_st w' = state_new cf sup fl) \/
    exists a p', N.testbit sup AUTO_INIT = true /\ po_auto_init_locality (e_platform e) p = (inl a, p') /\
      ((r <> Ok tt /\ auto_initialised cf sup fl (a mod 2 ^ 32) 0 z z (w_st w')) \/
       (r = Ok tt /\ exists d, hash_of (e_crypto e) [z; m] d /\ length d = tci_size cf /\
                     auto_initialised cf sup fl (a mod 2 ^ 32) ty d m (w_st w'))).
Proof.
  intros cf e sup fl ty m c p out r w' Hcf H. apply (dpe_new_auto_init_fresh cf e Hcf sup fl) in H; [|reflexivity].
  destruct H as [[H1 H2]|(a & p' & H1 & H2 & [[H3 H4]|(H3 & d & H4 & H5 & H6)])]; [left; auto| |];
    right; exists a, p'; (split; [exact H1|]); (split; [exact H2|]).
  - left. split; [exact H3|]. rewrite H4. apply auto_state_spec; exact Hcf.
  - right. split; [exact H3|]. exists d. split; [eapply hashed_hash_of; exact H4|]. split; [exact H5|].
    rewrite H6. apply auto_state_spec; exact Hcf.
Qed.
Print Assumptions C36_new_measured.

Example C36_runs :
  let w := mkWorld (state_new toy_cf all_features 0) toy_c0 tt toy_buf in
  let m := dpe_new_auto_init toy_cf toy_c unit (toy_crypto counting) toy_platform 5 (data 6) w in
  fst m = Ok tt /\ map c_locality (st_contexts (w_st (snd m))) = [9; 0; 0; 0]%N /\
  map c_state (st_contexts (w_st (snd m))) = [Active; Inactive; Inactive; Inactive].
Proof. vm_compute. repeat split; reflexivity. Qed.

(** ** C37: a context's measurements change only with its owner's or its
    parent's authorisation *)

(** [authorised s cmd loc i m]: the command presents, from the locality owning
    it, the live handle of context [i] itself (recursive DeriveContext) or of
    its parent (UpdateContextMeasurement), together with the measurement [m]. *)
Definition authorised (s : state) (cmd : command) (loc : N) (i : nat) (m : bytes) : Prop :=
  match cmd with
  | CmdDeriveContext d => N.testbit (dc_flags d) 24 = true /\ names s (dc_handle d) loc i /\ m = dc_data d
  | CmdUpdateContextMeasurement u =>
      (exists p, names s (uc_parent_handle u) loc p /\ child_of s p i) /\ m = uc_data u /\
      exists c, at_slot s i c /\ tci_type (c_tci c) = uc_tci_type u
  | _ => False
  end.

Theorem C37_step :
  forall cf e cmd loc s r s' i c c',
    config_ok cf -> wf cf s -> executes cf e cmd loc s r s' ->
    at_slot s i c -> live c -> at_slot s' i c' -> live c' ->
    same_identity c c' /\
    (c_tci c' = c_tci c \/
     exists m, authorised s cmd loc i m /\ c_state c = Active /\
       tci_current (c_tci c') = m /\
       hash_of (e_crypto e) [tci_cumulative (c_tci c); m] (tci_cumulative (c_tci c'))).
Proof.
  intros cf e cmd loc s r s' i c c' Hcf W (x & p & o & x' & p' & o' & H) Hi L Hi' L'.
  apply (command_framed cf e Hcf) in H; [|exact W]. cbn [w_st] in H.
  destruct (H i c c' Hi L Hi' L') as [S [T|(m & d & A & Hd & _ & St & C1 & C2)]]; (split; [exact S|]); [auto|].
  right. exists m. split.
  - destruct cmd; try contradiction; cbn [may_extend authorised] in *.
    + destruct A as (A1 & [A2 _] & A3). auto.
    + destruct A as ((q & [A1 _] & A2) & (c1 & A3 & _ & A4) & _ & A5). eauto 10.
  - split; [exact St|]. split; [exact C2|]. rewrite C1. eapply hashed_hash_of; exact Hd.
Qed.
Print Assumptions C37_step.

(** A caller from a locality that owns neither the context nor its parent never
    changes its measurements. *)
Theorem C37_other_localities :
  forall cf e cmd loc s r s' i c c',
    config_ok cf -> wf cf s -> executes cf e cmd loc s r s' ->
    at_slot s i c -> live c -> at_slot s' i c' -> live c' ->
    c_locality c <> loc -> (forall pc, at_slot s (c_parent c) pc -> c_locality pc <> loc) ->
    c_tci c' = c_tci c.
Proof.
  intros cf e cmd loc s r s' i c c' Hcf W H Hi L Hi' L' N1 N2.
  destruct (C37_step cf e cmd loc s r s' i c c' Hcf W H Hi L Hi' L') as [_ [T|(m & A & _)]]; [exact T|].
  exfalso. destruct cmd; try contradiction; cbn [authorised] in A.
  - destruct A as (_ & (x & Hx & _ & Lx & _) & _). unfold at_slot in *. congruence.
  - destruct A as ((p & (x & Hx & _ & Lx & _) & (y & Hy & _ & Py)) & _).
    assert (y = c) by (unfold at_slot in *; congruence). subst y.
    apply (N2 x); [rewrite Py; exact Hx|exact Lx].
Qed.
Print Assumptions C37_other_localities.

(** ** C38: slot reuse leaks nothing *)

(** Whatever stale content the slot had -- the states need not even be
    well-formed -- the created context depends only on the command, the caller's
    locality and the drawn handle (and, for a child, on the parent). *)
Theorem C38_init_from_scratch :
  forall cf e1 e2 f loc s1 s2 n1 n2 s1' s2' k1 k2 c1 c2,
    executes cf e1 (CmdInitCtx f) loc s1 (Ok n1) s1' ->
    executes cf e2 (CmdInitCtx f) loc s2 (Ok n2) s2' ->
    first_slot (free_at s1) k1 -> first_slot (free_at s2) k2 ->
    at_slot s1' k1 c1 -> at_slot s2' k2 c2 -> c_handle c1 = c_handle c2 -> c1 = c2.
Proof.
  intros cf e1 e2 f loc s1 s2 n1 n2 s1' s2' k1 k2 c1 c2 H1 H2 F1 F2 A1 A2 Hh.
  assert (G : forall e s n s' k c, executes cf e (CmdInitCtx f) loc s (Ok n) s' ->
            first_slot (free_at s) k -> at_slot s' k c ->
            exists b, c = init_context cf (if if_simulation f then Simulation else Normal) loc (c_handle c) b /\
                      b = negb (if_simulation f)).
  { clear. intros e s n s' k c (x & p & o & x' & p' & o' & H) F A. cbn [exec_command] in H.
    apply exec_init_inv in H as [[_ N]|(s'' & bs & (k' & h & Hf & _ & D) & H)]; [exfalso; eapply N; reflexivity|].
    cbn [w_st] in *. destruct H as [K _]. cbn [w_st] in K. subst s''.
    assert (k' = k).
    { destruct F as [F1 F2], Hf as [G1 G2]. destruct (lt_eq_lt_dec k k') as [[?|?]|?]; auto.
      - exfalso; eapply G2; eauto.
      - exfalso; eapply F2; eauto. }
    subst k'. pose proof F as [(old & Hold & _) _].
    destruct D as [(_ & B & _ & -> & ->)|(B & _ & _ & _ & ->)]; rewrite B.
    - assert (Q : at_slot (put_ctx (set_init true s) k (init_context cf Normal loc default_handle true)) k
                          (init_context cf Normal loc default_handle true)) by (eapply at_put_same; exact Hold).
      rewrite (at_det _ _ _ _ A Q). eexists; split; reflexivity.
    - rewrite (at_det _ _ _ _ A (at_put_same _ _ old (init_context cf Simulation loc h false) Hold)). eexists; split; reflexivity. }
  destruct (G _ _ _ _ _ _ H1 F1 A1) as (b1 & E1 & B1). destruct (G _ _ _ _ _ _ H2 F2 A2) as (b2 & E2 & B2).
  rewrite E1, E2, B1, B2, Hh. reflexivity.
Qed.
Print Assumptions C38_init_from_scratch.

Theorem C38_child_from_scratch :
  forall cf e d loc s1 s2 n1 n2 s1' s2' p pc1 pc2 k1 k2 c1 c2,
    (forall l d1 d2, hash_of (e_crypto e) l d1 -> hash_of (e_crypto e) l d2 -> d1 = d2) ->
    N.testbit (dc_flags d) 24 = false -> N.testbit (dc_flags d) 23 = false ->
    executes cf e (CmdDeriveContext d) loc s1 (Ok n1) s1' ->
    executes cf e (CmdDeriveContext d) loc s2 (Ok n2) s2' ->
    first_slot (names s1 (dc_handle d) loc) p -> at_slot s1 p pc1 ->
    first_slot (names s2 (dc_handle d) loc) p -> at_slot s2 p pc2 ->
    c_type pc1 = c_type pc2 -> c_export pc1 = c_export pc2 -> c_recursive pc1 = c_recursive pc2 ->
    first_slot (free_at s1) k1 -> first_slot (free_at s2) k2 ->
    at_slot s1' k1 c1 -> at_slot s2' k2 c2 -> c_handle c1 = c_handle c2 -> c1 = c2.
Proof.
  intros cf e d loc s1 s2 n1 n2 s1' s2' p pc1 pc2 k1 k2 c1 c2 HF B24 B23 H1 H2 P1 Q1 P2 Q2 T X R F1 F2 A1 A2 Hh.
  assert (U : forall Q i j, first_slot Q i -> first_slot Q j -> i = j).
  { intros Q i j [I1 I2] [J1 J2]. destruct (lt_eq_lt_dec i j) as [[?|?]|?]; auto.
    - exfalso; eapply J2; eauto.
    - exfalso; eapply I2; eauto. }
  assert (G : forall s n s' pc k c, executes cf e (CmdDeriveContext d) loc s (Ok n) s' ->
            first_slot (names s (dc_handle d) loc) p -> at_slot s p pc ->
            first_slot (free_at s) k -> at_slot s' k c ->
            exists dg, hash_of (e_crypto e) [repeat 0%N (tci_size cf); dc_data d] dg /\
                       c = child_context d p pc (derive_target d loc) (c_handle c) dg).
  { clear - B24 B23 U. intros s n s' pc k c (x & q & o & x' & q' & o' & H) P Q F A. cbn [exec_command] in H.
    apply exec_derive_inv in H as [(_ & N & _)|[(s'' & bs & Hd & H)|[(s'' & bs & Hd & H)|(s'' & w2 & cr & ph & Hd & H)]]].
    - exfalso; eapply N; reflexivity.
    - exfalso. destruct Hd as (? & ? & ? & ? & _ & Z & _). unfold df_recursive in Z. rewrite contains_bit in Z. congruence.
    - cbn [w_st] in *. destruct H as [K _]. cbn [w_st] in K.
      destruct Hd as (p' & pc0 & pc' & k' & h & dg & (_ & Hf & Hp & _) & _ & _ & _ & _ & Hk & _ & _ & _ & Hh & _ & _ & Hs & _).
      pose proof (U _ _ _ Hf P). subst p'. pose proof (U _ _ _ Hk F). subst k'.
      rewrite (at_det _ _ _ _ Hp Q) in *. subst s'' s'.
      assert (Ne : p <> k).
      { intros ->. destruct F as [(y & Hy & Iy) _]. destruct P as [(z & Hz & Az & _) _].
        rewrite (at_det _ _ _ _ Hy Hz) in Iy. congruence. }
      destruct F as [(old & Hold & _) _].
      pose proof (at_put_same _ _ _ (child_context d p pc (derive_target d loc) h dg) Hold) as Y.
      eapply at_put_other in Y; [|exact Ne]. rewrite (at_det _ _ _ _ A Y).
      exists dg. split; [eapply hashed_hash_of; exact Hh|reflexivity].
    - exfalso. destruct Hd as (? & ? & ? & ? & ? & ? & _ & _ & _ & Z & _). unfold df_export_cdi in Z. rewrite contains_bit in Z. congruence. }
  destruct (G _ _ _ _ _ _ H1 P1 Q1 F1 A1) as (d1 & D1 & E1). destruct (G _ _ _ _ _ _ H2 P2 Q2 F2 A2) as (d2 & D2 & E2).
  rewrite E1, E2, Hh, (HF _ _ _ D1 D2). unfold child_context. rewrite T, X, R. reflexivity.
Qed.
Print Assumptions C38_child_from_scratch.

(** Slots that are free in a reachable state hold no data of their previous
    occupant ([blank]); only the type and export fields keep an old value, and
    the two theorems above show that they do not matter. *)
Theorem C38_free_slots_blank :
  forall cf s i c, config_ok cf -> reachable cf s -> at_slot s i c -> c_state c = Inactive -> blank cf c.
Proof. intros cf s i c Hcf R Hi Hf. apply (so_free _ _ _ (wf_slot _ _ (reachable_wf cf Hcf s R) i c Hi) Hf). Qed.
Print Assumptions C38_free_slots_blank.

(** Non-vacuity: slot 0 is used for a simulation context, freed, and used again
    by a normal one. *)
Example C38_reuse :
  let l := [(init_simulation, 0%N); (CmdDestroyCtx (Hn 1), 0%N)] in
  map c_type (st_contexts (toy_state l)) = [Simulation; Normal; Normal; Normal] /\
  nth_error (st_contexts (toy_state (l ++ [(init_default, 0%N)]))) 0 =
  nth_error (st_contexts (toy_state [(init_default, 0%N)])) 0.
Proof. vm_compute. split; reflexivity. Qed.

(** ** C41: responses report what was stored *)
Theorem C41_reported :
  forall cf e cmd loc w n w',
    config_ok cf -> wf cf (w_st w) ->
    exec_command cf (e_C e) (e_P e) (e_crypto e) (e_platform e) (e_cert e) cmd loc w = (Ok n, w') ->
    success_header cf (w_out w') /\ reported cmd loc (w_st w) (w_st w') (w_out w') n.
Proof. intros; eapply command_reported; eassumption. Qed.
Print Assumptions C41_reported.

(** Commands without a certificate write exactly the returned number of bytes,
    at the start of the buffer, and nothing when they fail. *)
Theorem C41_only_the_response :
  forall cf e cmd loc w r w',
    ~ writes_certificate cmd ->
    exec_command cf (e_C e) (e_P e) (e_crypto e) (e_platform e) (e_cert e) cmd loc w = (r, w') ->
    (exists bs, r = Ok (N.of_nat (length bs)) /\ length bs <= length (w_out w) /\
                w_out w' = bs ++ skipn (length bs) (w_out w)) \/
    ((forall n, r <> Ok n) /\ w_out w' = w_out w).
Proof. intros; eapply command_buffer; eassumption. Qed.
Print Assumptions C41_only_the_response.

Example C41_handles :
  let w := toy_run toy_env [(init_simulation, 0%N)] toy_w0 in
  let x := exec_command toy_cf toy_c unit (toy_crypto counting) toy_platform (toy_cert (PkEcdsa256 [1%N] [2%N]))
             (derive (Hn 1) (2 ^ 29) 7) 0 w in
  fst x = Ok 44%N /\ slice (w_out (snd x)) 12 16 = Hn 3 /\ slice (w_out (snd x)) 28 16 = Hn 2 /\
  map c_handle (st_contexts (w_st (snd x))) = [Hn 2; Hn 3; H0; H0].
Proof. vm_compute. repeat split; reflexivity. Qed.
