(** Props_Tree.v -- properties of the context forest: C05-C09, C11, C18. *)
From Verif Require Import Base Errors Types StateOps Env Wire Instance Commands Lib Spec Exec
  Effects Forest DestroyProofs History Contract Steps Reach Frame Denials CommandSpecs HandleProofs
  TreeProofs Toy.
Local Open Scope nat_scope.

(** ** C05: the contexts always form a forest with consistent links *)
Theorem C05_forest :
  forall cf s, config_ok cf -> reachable cf s ->
    length (st_contexts s) = max_handles cf /\
    (** parents are in use and list their children *)
    (forall i c, at_slot s i c -> live c -> c_parent c <> ROOT ->
       exists p, at_slot s (c_parent c) p /\ live p /\ has_bit (c_children p) i) /\
    (** listed children are in use and point back *)
    (forall i c j, at_slot s i c -> has_bit (c_children c) j ->
       live c /\ exists d, at_slot s j d /\ live d /\ c_parent d = i) /\
    (** following parents visits no slot twice and ends at a root *)
    (forall i c, at_slot s i c -> live c ->
       exists l, path s i l /\ NoDup l /\ length l <= max_handles cf) /\
    (** a retired context has a child *)
    (forall i c, at_slot s i c -> c_state c = Retired -> exists j, has_bit (c_children c) j) /\
    (** free slots are blank *)
    (forall i c, at_slot s i c -> c_state c = Inactive -> blank cf c).
Proof.
  intros cf s Hcf H. pose proof (reachable_wf cf Hcf s H) as W. pose proof (wf_forest _ _ W) as F.
  split; [apply F|]. split; [apply F|]. split.
  { intros i c j Hc Hb. exact (fo_down _ _ F i c j Hc Hb). }
  split.
  { intros i c Hc Hl. destruct (fo_acyclic _ _ F i) as (l & Hl'); [exists c; auto|].
    exists l. split; [exact Hl'|]. split; [eapply path_NoDup; eauto|]. rewrite <- (fo_size _ _ F). eapply path_bound; eauto. }
  split; [apply F|]. intros i c Hc. apply (so_free _ _ _ (wf_slot _ _ W i c Hc)).
Qed.
Print Assumptions C05_forest.

(** Non-vacuity: root, retired child with a grandchild, all slots accounted for. *)
Example C05_chain :
  let l := [(init_default, 5%N); (derive_to H0 (2 ^ 29 + 2 ^ 27) 7 0, 5%N); (derive (Hn 1) 0 8, 0%N)] in
  reachable toy_cf (toy_state l) /\
  map c_state (st_contexts (toy_state l)) = [Active; Retired; Active; Inactive] /\
  map c_parent (st_contexts (toy_state l)) = [ROOT; 0; 1; ROOT] /\
  map c_children (st_contexts (toy_state l)) = [2%N; 4%N; 0%N; 0%N].
Proof. split; [apply toy_reachable; toy_wf|]. vm_compute. repeat split; reflexivity. Qed.

(** ** C06: the base CDI is initialised at most once *)

(** [initialises] tells the events that initialised the default tree:
    InitializeContext with the DEFAULT flag, the creation of an instance with
    AUTO_INIT and the creation of a measured instance, each if successful. *)
Theorem C06_initialised_once :
  forall cf E G l s, config_ok cf -> history cf E G l s ->
    length (filter (initialises (st_support s)) l) <= 1.
Proof. intros cf E G l s Hcf H. apply (initialised_once cf Hcf E G l s H). Qed.
Print Assumptions C06_initialised_once.

(** Afterwards, whatever was done or destroyed since, a further attempt is
    refused and changes nothing. *)
Theorem C06_refused_afterwards :
  forall cf E G l s ev, config_ok cf -> history cf E G l s -> In ev l -> initialises (st_support s) ev = true ->
    forall e f loc r s', N.testbit f 30 = true -> executes cf e (CmdInitCtx f) loc s r s' ->
      r = Err ArgumentNotSupported /\ s' = s.
Proof.
  intros cf E G l s ev Hcf H Hin Hev e f loc r s' B (c & p & o & c' & p' & o' & X).
  assert (I : st_init s = true).
  { destruct (initialised_once cf Hcf E G l s H) as [K1 K2]. apply K2.
    assert (K : In ev (filter (initialises (st_support s)) l)) by (apply filter_In; auto).
    destruct (filter (initialises (st_support s)) l) as [|a [|b q]]; cbn in *; [contradiction|reflexivity|lia]. }
  apply init_refused in X as [-> Hw]; [inversion Hw; auto|]. right. auto.
Qed.
Print Assumptions C06_refused_afterwards.

(** All normal contexts belong to one tree. *)
Theorem C06_single_tree :
  forall cf s, config_ok cf -> reachable cf s ->
    forall i j c d, at_slot s i c -> at_slot s j d -> live c -> live d -> c_type c = Normal -> c_type d = Normal ->
    exists r rc, at_slot s r rc /\ c_parent rc = ROOT /\ below s r i /\ below s r j.
Proof. intros cf s Hcf H i j c d. exact (one_normal_tree cf s i j c d (reachable_wf cf Hcf s H)). Qed.
Print Assumptions C06_single_tree.

(** Non-vacuity: initialise, destroy everything, try again. *)
Example C06_second_attempt :
  let l := [(init_default, 0%N); (CmdDestroyCtx H0, 0%N)] in
  reachable toy_cf (toy_state l) /\
  map c_state (st_contexts (toy_state l)) = [Inactive; Inactive; Inactive; Inactive] /\
  toy_result counting [] init_default 0 = Ok 28%N /\
  toy_result counting l init_default 0 = Err ArgumentNotSupported /\
  toy_result counting l init_simulation 0 = Ok 28%N.
Proof. split; [apply toy_reachable; toy_wf|]. vm_compute. repeat split; reflexivity. Qed.

(** ** C07: simulation contexts never reach real keys *)

(** All contexts of a tree have the same type. *)
Theorem C07_type_of_tree :
  forall cf s, config_ok cf -> reachable cf s ->
    forall a i ca c, below s a i -> at_slot s a ca -> at_slot s i c -> c_type c = c_type ca.
Proof.
  intros cf s Hcf H a i ca c (l & Hl & Ha) Hca Hc.
  apply (path_inherits cf s i l (reachable_wf cf Hcf s H) Hl c Hc a ca Ha Hca).
Qed.
Print Assumptions C07_type_of_tree.

(** No command changes the type of a context that stays in use. *)
Theorem C07_type_kept :
  forall cf e cmd loc s r s', config_ok cf -> wf cf s -> executes cf e cmd loc s r s' ->
    forall i c c', at_slot s i c -> live c -> at_slot s' i c' -> live c' -> c_type c' = c_type c.
Proof.
  intros cf e cmd loc s r s' Hcf W (c0 & p & o & c0' & p' & o' & H) i c c' Hc Lc Hc' Lc'.
  apply command_framed in H; auto. apply (H i c c' Hc Lc Hc' Lc').
Qed.
Print Assumptions C07_type_kept.

Theorem C07_sign_rejected :
  forall cf e c h loc w r w' i x,
    exec_command cf (e_C e) (e_P e) (e_crypto e) (e_platform e) (e_cert e) (CmdSign c) loc w = (r, w') ->
    presents (CmdSign c) h -> first_slot (names (w_st w) h loc) i -> at_slot (w_st w) i x ->
    c_type x = Simulation -> r = Err InvalidArgument /\ w' = w.
Proof. intros; eapply sign_simulation; eauto. Qed.
Print Assumptions C07_sign_rejected.

(** EXPORT_CDI (bit 23) on a simulation context. *)
Theorem C07_export_rejected :
  forall cf e d loc w r w' i x,
    config_ok cf -> wf cf (w_st w) ->
    exec_command cf (e_C e) (e_P e) (e_crypto e) (e_platform e) (e_cert e) (CmdDeriveContext d) loc w = (r, w') ->
    ~ unsupported_option (w_st w) (dc_flags d) ->
    first_slot (names (w_st w) (dc_handle d) loc) i -> at_slot (w_st w) i x ->
    c_type x = Simulation -> N.testbit (dc_flags d) 23 = true -> r = Err InvalidArgument /\ w' = w.
Proof.
  intros cf e d loc w r w' i x Hcf W H U Hf Hx Ht B.
  eapply derive_rejected; eauto. right; right; left. auto.
Qed.
Print Assumptions C07_export_rejected.

Theorem C07_only_if_supported :
  forall cf s, config_ok cf -> reachable cf s ->
    forall i c, at_slot s i c -> c_type c = Simulation -> supports s SIMULATION.
Proof. intros cf s Hcf H i c Hc. apply (so_simulation _ _ _ (wf_slot _ _ (reachable_wf cf Hcf s H) i c Hc)). Qed.
Print Assumptions C07_only_if_supported.

(** Non-vacuity: a simulation tree of depth two. *)
Example C07_simulation_tree :
  let l := [(init_simulation, 0%N); (derive (Hn 1) (2 ^ 29) 7, 0%N)] in
  reachable toy_cf (toy_state l) /\
  map c_type (st_contexts (toy_state l)) = [Simulation; Simulation; Normal; Normal] /\
  map c_parent (st_contexts (toy_state l)) = [ROOT; 0; ROOT; ROOT] /\
  toy_result counting l (sign (Hn 3)) 0 = Err InvalidArgument /\
  toy_result counting l (derive (Hn 3) (2 ^ 23 + 2 ^ 22) 9) 0 = Err InvalidArgument.
Proof. split; [apply toy_reachable; toy_wf|]. vm_compute. repeat split; reflexivity. Qed.

(** ** C08: permissions only shrink along derivation *)
Theorem C08_permissions_shrink :
  forall cf s, config_ok cf -> reachable cf s ->
    forall a i ca c, below s a i -> at_slot s a ca -> at_slot s i c ->
      (c_x509 c = true -> c_x509 ca = true) /\ (c_export c = true -> c_export ca = true) /\
      (c_recursive c = true -> c_recursive ca = true).
Proof.
  intros cf s Hcf H a i ca c (l & Hl & Ha) Hca Hc.
  apply (path_inherits cf s i l (reachable_wf cf Hcf s H) Hl c Hc a ca Ha Hca).
Qed.
Print Assumptions C08_permissions_shrink.

(** No command grants (or takes) a permission of a context that stays in use. *)
Theorem C08_never_granted :
  forall cf e cmd loc s r s', config_ok cf -> wf cf s -> executes cf e cmd loc s r s' ->
    forall i c c', at_slot s i c -> live c -> at_slot s' i c' -> live c' ->
      c_x509 c' = c_x509 c /\ c_export c' = c_export c /\ c_recursive c' = c_recursive c.
Proof.
  intros cf e cmd loc s r s' Hcf W (c0 & p & o & c0' & p' & o' & H) i c c' Hc Lc Hc' Lc'.
  apply command_framed in H; auto. destruct (H i c c' Hc Lc Hc' Lc') as [(_ & _ & _ & _ & _ & A & B & D & _) _]. auto.
Qed.
Print Assumptions C08_never_granted.

(** Non-vacuity: the grandchild asks for everything but its parent may only
    export, so nothing else is granted; asking for X.509 is refused. *)
Example C08_three_generations :
  let l := [(init_default, 0%N); (derive H0 (2 ^ 28 + 2 ^ 26) 7, 0%N); (derive H0 (2 ^ 28 + 2 ^ 26 + 2 ^ 21) 8, 0%N)] in
  reachable toy_cf (toy_state l) /\
  map c_export (st_contexts (toy_state l)) = [true; true; true; true] /\
  map c_recursive (st_contexts (toy_state l)) = [true; false; false; false] /\
  map c_x509 (st_contexts (toy_state l)) = [true; false; false; false] /\
  toy_result counting l (derive H0 (2 ^ 28 + 2 ^ 25) 9) 0 = Err InvalidArgument.
Proof. split; [apply toy_reachable; toy_wf|]. vm_compute. repeat split; reflexivity. Qed.

(** ** C09: INPUT_TYPE is unique among siblings *)
Theorem C09_siblings_distinct :
  forall cf s, config_ok cf -> reachable cf s ->
    forall i j c d, at_slot s i c -> at_slot s j d -> live c -> live d ->
      c_parent c = c_parent d -> c_parent c <> ROOT ->
      tci_type (c_tci c) = tci_type (c_tci d) -> i = j.
Proof. intros cf s Hcf H. apply (wf_siblings _ _ (reachable_wf cf Hcf s H)). Qed.
Print Assumptions C09_siblings_distinct.

(** A derivation duplicating the type of an (active or retired) child is
    refused. *)
Theorem C09_duplicate_refused :
  forall cf e d loc w r w' p pc i c,
    config_ok cf -> wf cf (w_st w) ->
    exec_command cf (e_C e) (e_P e) (e_crypto e) (e_platform e) (e_cert e) (CmdDeriveContext d) loc w = (r, w') ->
    ~ unsupported_option (w_st w) (dc_flags d) -> N.testbit (dc_flags d) 24 = false ->
    first_slot (names (w_st w) (dc_handle d) loc) p -> at_slot (w_st w) p pc ->
    at_slot (w_st w) i c -> live c -> c_parent c = p -> tci_type (c_tci c) = dc_tci_type d ->
    r = Err InvalidArgument /\ w' = w.
Proof.
  intros cf e d loc w r w' p pc i c Hcf W H U B Hf Hp Hc Lc Pc Ht.
  eapply derive_rejected; eauto. right; right; right. split; [exact B|].
  exists i, c. split; [exact Hc|]. split; [exists c; auto|exact Ht].
Qed.
Print Assumptions C09_duplicate_refused.

(** Non-vacuity: the sibling of type 7 is retired, its type still taken. *)
Example C09_retired_sibling :
  let l := [(init_default, 5%N); (derive_to H0 (2 ^ 29 + 2 ^ 27) 7 0, 5%N); (derive (Hn 1) 0 8, 0%N)] in
  reachable toy_cf (toy_state l) /\
  map c_state (st_contexts (toy_state l)) = [Active; Retired; Active; Inactive] /\
  toy_result counting l (derive_to H0 (2 ^ 29 + 2 ^ 27) 7 0) 5 = Err InvalidArgument /\
  toy_result counting l (derive_to H0 (2 ^ 29 + 2 ^ 27) 8 0) 5 = Ok 44%N.
Proof. split; [apply toy_reachable; toy_wf|]. vm_compute. repeat split; reflexivity. Qed.

(** ** C11: DestroyContext removes exactly the subtree and its orphaned retired
    ancestors *)

(** [doomed s t]: the addressed context [t], everything derived from it, and the
    retired contexts all of whose children go.  [pruned]: exactly those slots
    become blank; all others keep every field but the links to removed ones. *)
Theorem C11_destroy_exact :
  forall cf e h loc s n s', config_ok cf -> wf cf s -> executes cf e (CmdDestroyCtx h) loc s (Ok n) s' ->
    exists t, first_slot (names s h loc) t /\
      same_globals s s' /\ length (st_contexts s') = length (st_contexts s) /\
      forall i c, at_slot s i c -> exists c', at_slot s' i c' /\
        (doomed s t i -> blank cf c' /\ c_handle c' = repeat 255%N 16) /\
        (~ doomed s t i -> same_but_children c c' /\
           forall j, has_bit (c_children c') j <-> has_bit (c_children c) j /\ ~ doomed s t j).
Proof.
  intros cf e h loc s n s' Hcf W (c & p & o & c' & p' & o' & H).
  apply (command_effect cf _ _ _ _ _ Hcf) in H; [|exact W].
  destruct H as [(n' & _ & (t & Hf & G & L & Hp))|[N _]]; [|exfalso; eapply N; reflexivity].
  exists t. split; [exact Hf|]. split; [exact G|]. split; [exact L|].
  intros i x Hx. destruct (Hp i x Hx) as (x' & Hx' & K1 & K2). exists x'. split; [exact Hx'|].
  split; [|exact K2]. intros D. destruct (K1 D) as (? & ? & _). auto.
Qed.
Print Assumptions C11_destroy_exact.

(** What [doomed] amounts to: the subtree of [t], and the retired ancestors of
    [t] reached through single-child links. *)
Theorem C11_doomed_characterised :
  forall cf s t, config_ok cf -> wf cf s -> live_at s t ->
    forall i, doomed s t i <->
      below s t i \/
      (i <> t /\ below s i t /\
       forall j, below s j t -> j <> t -> below s i j ->
         exists c, at_slot s j c /\ c_state c = Retired /\
           forall k k', child_of s j k -> child_of s j k' -> k = k').
Proof. intros cf s t Hcf W Lt i. exact (doomed_shape cf Hcf s t (wf_forest _ _ W) Lt i). Qed.
Print Assumptions C11_doomed_characterised.

(** Destruction never fails once the handle is valid (and the 12-byte response
    fits). *)
Theorem C11_destroy_succeeds :
  forall cf e h loc w t,
    config_ok cf -> wf cf (w_st w) -> first_slot (names (w_st w) h loc) t -> 12 <= length (w_out w) ->
    exists w', exec_command cf (e_C e) (e_P e) (e_crypto e) (e_platform e) (e_cert e)
                            (CmdDestroyCtx h) loc w = (Ok 12%N, w').
Proof.
  intros cf e h loc w t Hcf W Hf Hb.
  destruct (destroy_total cf Hcf h (w_st w) loc t (wf_forest _ _ W) Hf) as (s' & Hs).
  cbn [exec_command]. unfold exec_destroy. rewrite bind_get_st, Hs.
  change (lift (Ok s')) with (@ret (e_C e) (e_P e) _ s'). rewrite bind_ret, bind_put_st.
  assert (L : length (ok_hdr_bytes cf) = 12) by (unfold ok_hdr_bytes, response_hdr_bytes; rewrite !app_length, !length_le_bytes; reflexivity).
  match goal with |- exists w', respond ?C ?P ?b ?w0 = _ => destruct (respond C P b w0) as [r w'] eqn:ER end.
  apply respond_inv in ER as [_ [(_ & -> & _)|(Lt & _ & _)]]; [|cbn [w_out] in Lt; lia].
  exists w'. rewrite L. reflexivity.
Qed.
Print Assumptions C11_destroy_succeeds.

(** Non-vacuity: destroying the grandchild also removes its retired parent, but
    not the active root. *)
Example C11_orphaned_retired :
  let l := [(init_default, 5%N); (derive_to H0 (2 ^ 29 + 2 ^ 27) 7 0, 5%N); (derive (Hn 1) 0 8, 0%N)] in
  reachable toy_cf (toy_state l) /\
  map c_state (st_contexts (toy_state l)) = [Active; Retired; Active; Inactive] /\
  toy_result counting l (CmdDestroyCtx (Hn 2)) 0 = Ok 12%N /\
  map c_state (st_contexts (toy_state (l ++ [(CmdDestroyCtx (Hn 2), 0%N)]))) = [Active; Inactive; Inactive; Inactive] /\
  map c_children (st_contexts (toy_state (l ++ [(CmdDestroyCtx (Hn 2), 0%N)]))) = [0%N; 0%N; 0%N; 0%N].
Proof. split; [apply toy_reachable; toy_wf|]. vm_compute. repeat split; reflexivity. Qed.

(** ** C18: capacity is exact and slots are recycled *)
Theorem C18_init_capacity :
  forall cf e f loc w r w',
    exec_command cf (e_C e) (e_P e) (e_crypto e) (e_platform e) (e_cert e) (CmdInitCtx f) loc w = (r, w') ->
    (N.testbit f 30 = true /\ N.testbit f 31 = false /\ st_init (w_st w) = false) \/
    (N.testbit f 30 = false /\ N.testbit f 31 = true /\ supports (w_st w) SIMULATION) ->
    (r = Err MaxTcis <-> forall i c, at_slot (w_st w) i c -> live c).
Proof. intros; eapply init_capacity; eassumption. Qed.
Print Assumptions C18_init_capacity.

(** DeriveContext creating a child.  Before it looks for a slot it may have to
    draw a new handle for a retained non-default parent, whose failure is
    reported first. *)
Theorem C18_derive_capacity :
  forall cf e d loc w r w' p pc,
    config_ok cf -> wf cf (w_st w) ->
    exec_command cf (e_C e) (e_P e) (e_crypto e) (e_platform e) (e_cert e) (CmdDeriveContext d) loc w = (r, w') ->
    N.testbit (dc_flags d) 24 = false -> N.testbit (dc_flags d) 23 = false ->
    ~ unsupported_option (w_st w) (dc_flags d) ->
    first_slot (names (w_st w) (dc_handle d) loc) p -> at_slot (w_st w) p pc ->
    ~ bad_request (w_st w) d p pc ->
    (r = Err MaxTcis -> forall i c, at_slot (w_st w) i c -> live c) /\
    ((forall i c, at_slot (w_st w) i c -> live c) ->
     w_st w' = w_st w /\
     (r = Err MaxTcis \/
      N.testbit (dc_flags d) 29 = true /\ dc_handle d <> repeat 0%N 16 /\
      ((exists ce, r = Err (CryptoErr ce)) \/ r = Err (InternalError HandleGenerationExhausted)))).
Proof. intros; eapply derive_capacity; eassumption. Qed.
Print Assumptions C18_derive_capacity.

(** The number of contexts in use never exceeds MAX_HANDLES. *)
Theorem C18_bounded : forall cf s, config_ok cf -> reachable cf s -> live_count s <= max_handles cf.
Proof. intros cf s Hcf H. apply live_count_le. apply (wf_forest _ _ (reachable_wf cf Hcf s H)). Qed.
Print Assumptions C18_bounded.

(** A creating command takes the lowest free slot and adds one context. *)
Theorem C18_creation :
  forall cf e cmd loc s n s',
    config_ok cf -> wf cf s -> executes cf e cmd loc s (Ok n) s' ->
    match cmd with
    | CmdInitCtx _ => True
    | CmdDeriveContext d => N.testbit (dc_flags d) 24 = false /\ N.testbit (dc_flags d) 23 = false
    | _ => False
    end ->
    live_count s' = S (live_count s) /\
    exists k c, first_slot (free_at s) k /\ at_slot s' k c /\ c_state c = Active.
Proof.
  intros cf e cmd loc s n s' Hcf W (c & p & o & c' & p' & o' & H) A.
  apply (command_effect cf _ _ _ _ _ Hcf) in H; [|exact W].
  destruct H as [(n' & _ & He)|[N _]]; [|exfalso; eapply N; reflexivity]. cbn [w_st] in He.
  destruct cmd; try contradiction; cbn [effect] in He.
  - split; [eapply init_count; eauto; apply (wf_forest _ _ W)|].
    destruct He as (k & h & Hf & _ & _ & _ & _ & _ & _ & Hk). eexists; eexists; eauto.
  - destruct A as [A1 A2]. rewrite A1, A2 in He. split; [eapply child_count; eauto|].
    destruct He as (q & qc & qc' & k & h & dg & _ & Hf & _ & _ & _ & _ & _ & Hk & _). eexists; eexists; eauto.
Qed.
Print Assumptions C18_creation.

(** Destruction frees as many contexts as there are doomed ones ([count_of Q m n]:
    [n] of the first [m] slot numbers are in [Q]), at least one. *)
Theorem C18_destruction :
  forall cf e h loc s n s',
    config_ok cf -> wf cf s -> executes cf e (CmdDestroyCtx h) loc s (Ok n) s' ->
    exists t d, first_slot (names s h loc) t /\ count_of (doomed s t) (max_handles cf) d /\
      live_count s' + d = live_count s /\ 1 <= d.
Proof.
  intros cf e h loc s n s' Hcf W (c & p & o & c' & p' & o' & H).
  apply (command_effect cf _ _ _ _ _ Hcf) in H; [|exact W].
  destruct H as [(n' & _ & (t & Hf & Hp))|[N _]]; [|exfalso; eapply N; reflexivity].
  assert (Lt : live_at s t).
  { destruct Hf as [(x & Hx & Ax & _) _]. exists x. split; [exact Hx|]. unfold live. congruence. }
  destruct (count_of_ex (doomed s t) (doomed_dec cf Hcf s t (wf_forest _ _ W) Lt) (max_handles cf)) as (d & Hd).
  exists t, d. split; [exact Hf|]. split; [exact Hd|]. split; [eapply pruned_count; eauto|].
  eapply count_of_pos; [exact Hd| |apply doomed_target].
  destruct Lt as (x & Hx & _). apply nth_error_lt in Hx. rewrite (fo_size _ _ (wf_forest _ _ W)) in Hx. exact Hx.
Qed.
Print Assumptions C18_destruction.

(** Non-vacuity: filling the four slots, then recycling. *)
Example C18_full_table :
  let l := [(init_simulation, 0%N); (init_simulation, 1%N); (init_simulation, 2%N); (init_default, 3%N)] in
  reachable toy_cf (toy_state l) /\ live_count (toy_state l) = 4 /\
  toy_result counting l init_simulation 0 = Err MaxTcis /\
  toy_result counting l (derive H0 (2 ^ 28) 7) 3 = Err MaxTcis /\
  toy_result counting (l ++ [(CmdDestroyCtx (Hn 2), 1%N)]) (derive H0 (2 ^ 28) 7) 3 = Ok 44%N /\
  map c_parent (st_contexts (toy_state (l ++ [(CmdDestroyCtx (Hn 2), 1%N); (derive H0 (2 ^ 28) 7, 3%N)]))) = [ROOT; 3; ROOT; ROOT].
Proof. split; [apply toy_reachable; toy_wf|]. vm_compute. repeat split; reflexivity. Qed.
