(** Props_Cfi.v -- the control-flow-integrity assertions of the default build (C48, C49). *)
From Verif Require Import Base Errors Types StateOps Env Wire Instance Commands X509 X509Cert Response Cfi
  Lib Spec Exec Steps Codec WireSpec History Reach Execute Avail Measure Toy ToyX509 CfiProofs FeatureProofs
  Props_Commands Props_Avail Props_X509.
Open Scope N_scope.

(** ** C48: no assertion fails in the code as written *)

(** One command, in every state whatever (reachable or not), every environment: the
    code with its assertions does exactly what the code without them does. *)
Theorem C48_commands :
  forall cf C P (co : crypto_ops C) (po : platform_ops P) cmd loc w,
    checked_command no_fault cf C P co po cmd loc w =
    exec_command cf C P co po (x509_gen cf C P co po) cmd loc w.
Proof. intros. apply same_command. Qed.
Print Assumptions C48_commands.

(** Creation of an instance. *)
Theorem C48_creation :
  forall cf C P (co : crypto_ops C) (po : platform_ops P) ty m w,
    checked_new no_fault cf C P co po w = dpe_new cf C P co po w /\
    checked_new_auto_init no_fault cf C P co po ty m w = dpe_new_auto_init cf C P co po ty m w.
Proof. intros. split; [apply same_new|apply same_new_auto]. Qed.
Print Assumptions C48_creation.

(** Any sequence of requests, as bytes. *)
Theorem C48_requests :
  forall cf C P (co : crypto_ops C) (po : platform_ops P) l w,
    serve C P (checked_serialized no_fault cf C P co po) l w =
    serve C P (execute_serialized_command cf C P co po (x509_gen cf C P co po)) l w.
Proof.
  intros cf C P co po l. induction l as [|[loc b] l IH]; intros w; [reflexivity|].
  cbn [serve]. rewrite same_serialized. destruct (execute_serialized_command _ _ _ _ _ _ _ _ _) as [r w1].
  rewrite IH. reflexivity.
Qed.
Print Assumptions C48_requests.

(** So the default build does not panic on any request in any reachable state. *)
Theorem C48_no_panic :
  forall cf C P (co : crypto_ops C) (po : platform_ops P) loc b s c p out r w',
    config_ok cf -> reachable cf s -> (forall q, chain_stops po (fuel cf) 0 (repeat 0 2048) q) -> all_bytes b ->
    checked_serialized no_fault cf C P co po loc b (mkWorld s c p out) = (r, w') ->
    forall k, r <> Crash k.
Proof.
  intros cf C P co po loc b s c p out r w' Hcf R Hp Hb H. rewrite same_serialized in H.
  exact (C21_x509_bytes cf C P co po loc b s c p out r w' Hcf R Hp Hb H).
Qed.
Print Assumptions C48_no_panic.

(** ** C49: what the assertions protect against *)

(** Any number of wrong decisions at the places that are asserted, in one command: the
    command fails or the machine stops, with nothing changed, or the command does what
    it does without any wrong decision, response included. *)
Theorem C49_harmless :
  forall f cf C P (co : crypto_ops C) (po : platform_ops P) cmd loc w,
    (forall s, f s = true -> re_checked s = true) ->
    (w_st (snd (checked_command f cf C P co po cmd loc w)) = w_st w /\
     (fst (checked_command f cf C P co po cmd loc w) = Crash CrashAssert \/
      exists e, fst (checked_command f cf C P co po cmd loc w) = Err e)) \/
    checked_command f cf C P co po cmd loc w =
    exec_command cf C P co po (x509_gen cf C P co po) cmd loc w.
Proof.
  intros f cf C P co po cmd loc w Hf. apply (fine_command f). intros s Hs.
  destruct (f s) eqn:E; [|reflexivity]. rewrite (Hf s E) in Hs. discriminate.
Qed.
Print Assumptions C49_harmless.

(** Over whole lives: each step makes any such wrong decisions, in any environment.
    Every state reached this way is reached without wrong decisions too, so everything
    proved about reachable states holds there. *)
Inductive disturbed (cf : config) : state -> Prop :=
| di_new sup fl : u32 sup -> disturbed cf (state_new cf sup fl)
| di_create f C P (co : crypto_ops C) (po : platform_ops P) w :
    disturbed cf (w_st w) -> (forall s, f s = true -> re_checked s = true) ->
    disturbed cf (w_st (snd (checked_new f cf C P co po w)))
| di_command f C P (co : crypto_ops C) (po : platform_ops P) cmd loc w :
    disturbed cf (w_st w) -> (forall s, f s = true -> re_checked s = true) ->
    command_wf cf cmd -> u32 loc ->
    disturbed cf (w_st (snd (checked_command f cf C P co po cmd loc w))).

Theorem C49_lives : forall cf s, disturbed cf s -> reachable cf s.
Proof.
  intros cf s H. induction H as [sup fl Hs|f C P co po w _ (l & IH) Hf|f C P co po cmd loc w _ (l & IH) Hf Wc Hl].
  - exists []. apply hi_new. exact Hs.
  - assert (F : forall s, re_checked s = false -> f s = false).
    { intros s Hs. destruct (f s) eqn:E; [|reflexivity]. rewrite (Hf s E) in Hs. discriminate. }
    destruct (fine_new f F cf C P co po w) as [[E _]|E].
    + rewrite E. exists l. exact IH.
    + rewrite E. destruct (dpe_new cf C P co po w) as [r w'] eqn:D. exists (EvNew r :: l). cbn [snd].
      apply (hi_create cf any_env any_command l (w_st w)
               {| e_C := C; e_P := P; e_crypto := co; e_platform := po; e_cert := x509_gen cf C P co po |}); [exact IH|exact I| |intros; exact I].
      destruct w as [s1 c1 p1 o1], w' as [s2 c2 p2 o2]. exists c1, p1, o1, c2, p2, o2. exact D.
  - destruct (C49_harmless f cf C P co po cmd loc w Hf) as [[E _]|E].
    + rewrite E. exists l. exact IH.
    + rewrite E. destruct (exec_command cf C P co po (x509_gen cf C P co po) cmd loc w) as [r w'] eqn:D.
      exists (EvCommand cmd loc r :: l). cbn [snd].
      apply (hi_command cf any_env any_command l (w_st w)
               {| e_C := C; e_P := P; e_crypto := co; e_platform := po; e_cert := x509_gen cf C P co po |}); try assumption; try exact I.
      destruct w as [s1 c1 p1 o1], w' as [s2 c2 p2 o2]. exists c1, p1, o1, c2, p2, o2. exact D.
Qed.
Print Assumptions C49_lives.

(** Creation of a measured instance. *)
Theorem C49_creation :
  forall f cf C P (co : crypto_ops C) (po : platform_ops P) ty m w,
    (forall s, f s = true -> re_checked s = true) ->
    fst (checked_new_auto_init f cf C P co po ty m w) = Crash CrashAssert \/
    (exists e, fst (checked_new_auto_init f cf C P co po ty m w) = Err e) \/
    checked_new_auto_init f cf C P co po ty m w = dpe_new_auto_init cf C P co po ty m w.
Proof.
  intros f cf C P co po ty m w Hf. apply fine_new_auto. intros s Hs.
  destruct (f s) eqn:E; [|reflexivity]. rewrite (Hf s E) in Hs. discriminate.
Qed.
Print Assumptions C49_creation.

(** Any wrong decisions whatever, asserted or not, in any state: a command that is
    carried out was entitled to be in these respects. *)
Theorem C49_any_fault :
  forall f cf C P (co : crypto_ops C) (po : platform_ops P) cmd loc w n w',
    checked_command f cf C P co po cmd loc w = (Ok n, w') ->
    let s := w_st w in
    match cmd with
    | CmdInitCtx fl =>
        (N.testbit fl 30 = true /\ N.testbit fl 31 = false /\ st_init s = false) \/
        (N.testbit fl 30 = false /\ N.testbit fl 31 = true /\ supports s SIMULATION)
    | CmdDeriveContext c =>
        exists i pc, first_slot (names s (dc_handle c) loc) i /\ at_slot s i pc /\
          (N.testbit (dc_flags c) 31 = true -> supports s INTERNAL_INFO) /\
          (N.testbit (dc_flags c) 30 = true -> supports s INTERNAL_DICE) /\
          (N.testbit (dc_flags c) 29 = true -> supports s RETAIN_PARENT_CONTEXT) /\
          (N.testbit (dc_flags c) 25 = true -> supports s X509 /\ c_x509 pc = true) /\
          (N.testbit (dc_flags c) 24 = true -> N.testbit (dc_flags c) 29 = false)
    | CmdCertifyKey k =>
        exists i c, first_slot (names s (ck_handle (certify_inner k)) loc) i /\ at_slot s i c /\
          ((ck_format (certify_inner k) = 0 /\ supports s X509 /\ c_x509 c = true) \/
           (ck_format (certify_inner k) = 1 /\ supports s CSR))
    | CmdSign k =>
        exists h l d i c, sign_inputs k = Ok (h, l, d) /\
          first_slot (names s h loc) i /\ at_slot s i c /\ c_type c <> Simulation
    | CmdRotateCtx h fl =>
        supports s ROTATE_CONTEXT /\
        exists i, first_slot (names s h loc) i /\
          (N.testbit fl 31 = true ->
           (forall j, ~ names s default_handle loc j) /\
           forall j c, at_slot s j c -> c_state c = Active -> c_locality c = loc ->
                       c_handle c <> default_handle -> j = i)
    | _ => True
    end.
Proof.
  intros f cf C P co po cmd loc w n w' H. exact (warranted_command f cf C P co po cmd loc w n w' H).
Qed.
Print Assumptions C49_any_fault.

Definition c_run (sup : N) (l : list (command * N)) : world toy_c unit :=
  toy_run xenv l (mkWorld (state_new toy_cf sup 0) toy_c0 tt (repeat 0 1000)).
Definition c_exec (f : faults) (cmd : command) (loc : N) : world toy_c unit -> result N * world toy_c unit :=
  checked_command f toy_cf toy_c unit xc xp cmd loc.

Lemma c_reachable sup l :
  u32 sup -> Forall (fun cl => command_wf toy_cf (fst cl) /\ u32 (snd cl)) l -> reachable toy_cf (w_st (c_run sup l)).
Proof.
  intros Hs F. unfold reachable, c_run. apply (toy_run_history any_env any_command xenv I l []); auto.
  - apply hi_new. exact Hs.
  - intros; exact I.
Qed.

(** A signature with a simulation context, by a machine that does not see it is one, is
    stopped by the assertion; nothing changes. A certificate for a good key, by a machine
    that takes the wrong way at all three format decisions, too. *)
Example C48_C49_case :
  let w := c_run all_features [(init_simulation, 0)] in
  let v := c_run all_features [(init_default, 0); (derive H0 (2 ^ 28 + 2 ^ 25) 7, 0)] in
  let three := fun s => match s with AtCertifyFormat | AtCertifyIsX509 | AtCertifyIsCsr => true | _ => false end in
  re_checked AtSignType = true /\
  fst (c_exec no_fault (sign (Hn 1)) 0 w) = Err InvalidArgument /\
  fst (c_exec (fault_at AtSignType) (sign (Hn 1)) 0 w) = Crash CrashAssert /\
  w_st (snd (c_exec (fault_at AtSignType) (sign (Hn 1)) 0 w)) = w_st w /\
  is_ok (fst (c_exec no_fault (certify H0 0) 0 v)) = true /\
  (forall s, three s = true -> re_checked s = true) /\
  fst (c_exec three (certify H0 0) 0 v) = Crash CrashAssert /\
  is_ok (fst (c_exec (fault_at AtCertifyCsr) (certify H0 0) 0 v)) = true.
Proof.
  cbv zeta. split; [reflexivity|]. split; [vm_compute; reflexivity|]. split; [vm_compute; reflexivity|].
  split; [vm_compute; reflexivity|]. split; [vm_compute; reflexivity|].
  split; [intros []; try discriminate; reflexivity|]. split; vm_compute; reflexivity.
Qed.

(** Each of the other decisions can be turned into success with another effect than the
    command has: one wrong decision there, in some reachable state, and the command is
    carried out and leaves another state than the code as written does. *)
Definition exposed (s : site) : Prop :=
  exists sup l cmd loc n,
    reachable toy_cf (w_st (c_run sup l)) /\ command_wf toy_cf cmd /\ u32 loc /\
    fst (c_exec (fault_at s) cmd loc (c_run sup l)) = Ok n /\
    w_st (snd (c_exec (fault_at s) cmd loc (c_run sup l))) <>
    w_st (snd (c_exec no_fault cmd loc (c_run sup l))).

Ltac exposes sup l cmd loc n :=
  exists sup, l, cmd, loc, n;
  split; [apply c_reachable; [reflexivity|toy_wf]|];
  split; [vm_compute; repeat split; auto 20; repeat constructor|]; split; [reflexivity|];
  split; [vm_compute; reflexivity|]; vm_compute; discriminate.

Theorem C49_exposed_refuted :
  forall s, re_checked s = false -> s <> AtNewAuto ->
    (forall i, s = AtDestroyRetired i \/ s = AtDestroySlot i -> i = 0%nat) ->
    exposed s.
Proof.
  intros s Hs Ha Hi. destruct s; try discriminate Hs; try congruence.
  - exposes all_features [(init_default, 0)] (sign H0) 0 92.
  - exposes all_features (@nil (command * N)) init_simulation 0 28.
  - exposes (2 ^ 32 - 1 - 2 ^ 30) [(init_default, 0)] (derive H0 (2 ^ 24) 0) 0 44.
  - exposes all_features [(init_default, 0); (derive H0 (2 ^ 28) 7, 0)] (derive H0 (2 ^ 24) 7) 0 44.
  - exposes all_features [(init_default, 0)] (derive H0 (2 ^ 24) 0) 0 44.
  - exposes all_features [(init_default, 0); (derive_to H0 (2 ^ 29 + 2 ^ 27) 7 4, 0)] (derive_to H0 (2 ^ 29 + 2 ^ 27) 7 4) 0 44.
  - exposes all_features [(init_simulation, 0)] (derive (Hn 1) 0 7) 0 44.
  - exposes all_features [(init_default, 0)] (derive_to H0 (2 ^ 29 + 2 ^ 27) 7 4) 0 44.
  - exposes all_features [(init_default, 0)] (derive H0 export_flags 7) 0 44.
  - exposes all_features [(init_default, 0)] (derive H0 export_flags 7) 0 641.
  - rewrite (Hi i (or_introl eq_refl)).
    exposes all_features [(init_default, 0); (derive_to H0 (2 ^ 29 + 2 ^ 28 + 2 ^ 27) 7 4, 0)] (CmdDestroyCtx H0) 4 12.
  - rewrite (Hi i (or_intror eq_refl)).
    exposes all_features [(init_default, 0); (derive_to H0 (2 ^ 29 + 2 ^ 28 + 2 ^ 27) 7 4, 0)] (CmdDestroyCtx H0) 4 12.
  - exposes all_features [(init_default, 0); (init_simulation, 0)] (CmdRotateCtx (Hn 1) 0) 0 28.
  - exposes all_features [(init_default, 0); (derive_to H0 (2 ^ 29 + 2 ^ 27) 7 4, 0)] (update H0 7) 0 44.
Qed.
Print Assumptions C49_exposed_refuted.

(** Creation: an instance whose settings do not ask for it is initialised anyway. *)
Theorem C49_auto_init_refuted :
  exists w : world toy_c unit,
    reachable toy_cf (w_st w) /\ ~ supports (w_st w) AUTO_INIT /\
    fst (checked_new (fault_at AtNewAuto) toy_cf toy_c unit xc xp w) = Ok tt /\
    st_init (w_st (snd (checked_new (fault_at AtNewAuto) toy_cf toy_c unit xc xp w))) = true /\
    st_init (w_st (snd (dpe_new toy_cf toy_c unit xc xp w))) = false.
Proof.
  exists (c_run (2 ^ 26) []). split; [apply c_reachable; [reflexivity|toy_wf]|].
  split; [vm_compute; discriminate|]. repeat split; vm_compute; reflexivity.
Qed.
Print Assumptions C49_auto_init_refuted.

(** What one wrong decision can do, seen from outside: a second default handle in a
    locality (C10), two children of the same type (C09), and a CDI exported from a
    context that does not allow it (C33). *)
Example C49_consequences :
  let w := c_run all_features [(init_default, 0); (init_simulation, 0)] in
  let w1 := snd (c_exec (fault_at AtRotateKind) (CmdRotateCtx (Hn 1) 0) 0 w) in
  let v := c_run all_features [(init_default, 0); (derive_to H0 (2 ^ 29 + 2 ^ 27) 7 4, 0)] in
  let v1 := snd (c_exec (fault_at AtDeriveUnique) (derive_to H0 (2 ^ 29 + 2 ^ 27) 7 4) 0 v) in
  names (w_st w1) default_handle 0 0 /\ names (w_st w1) default_handle 0 1 /\
  (exists a b, at_slot (w_st v1) 1 a /\ at_slot (w_st v1) 2 b /\
     c_state a = Active /\ c_state b = Active /\ c_parent a = c_parent b /\
     tci_type (c_tci a) = 7 /\ tci_type (c_tci b) = 7) /\
  (let x := c_run all_features [(init_default, 0); (derive H0 (2 ^ 28) 7, 0)] in
   fst (c_exec no_fault (derive H0 export_flags 9) 0 x) = Err InvalidArgument /\
   is_ok (fst (c_exec (fault_at AtDeriveArgs) (derive H0 export_flags 9) 0 x)) = true).
Proof.
  cbv zeta. split; [|split; [|split]].
  1-2: eexists; split; [vm_compute; reflexivity|repeat split; vm_compute; reflexivity].
  2: split; vm_compute; reflexivity.
  do 2 eexists. split; [vm_compute; reflexivity|]. split; [vm_compute; reflexivity|].
  repeat split; vm_compute; reflexivity.
Qed.
