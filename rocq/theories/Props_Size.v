(** Props_Size.v -- response buffers: the same answer with every buffer that is large enough
    (C30), and whether the response structures are large enough (C45). *)
From Verif Require Import Base Errors Types StateOps Env Wire Instance Commands X509 X509Cert RespBuf Response DefaultPlatform RustCrypto Lib Spec Exec
  Effects Forest History WireSpec Codec Steps Reach Toy Contract Responses Execute Walk Measure X509Spec X509Gen X509Sane X509Cmd X509Facts X509Size X509Fit
  Buffers Fits KeyProofs ToyX509 RustProofs Props_Commands Props_Measure Props_X509 Props_Reference.
Open Scope N_scope.
Open Scope dpe_scope.

(** ** C30: no command truncates its answer *)

(** A command that succeeds with [n] bytes succeeds with every buffer of at least [n]
    bytes: with the same effect on the state, the back end and the platform and the same
    [n] bytes of answer.  With every shorter buffer it fails with InvalidResponseBuf or
    CertSizeOverflow. *)
Theorem C30_commands :
  forall cf C P (co : crypto_ops C) (po : platform_ops P) cmd loc s c p out n s' c' p' out',
    config_ok cf -> wf cf s -> command_wf cf cmd -> u32 loc ->
    exec_command cf C P co po (x509_gen cf C P co po) cmd loc (mkWorld s c p out) = (Ok n, mkWorld s' c' p' out') ->
    (N.to_nat n <= length out')%nat /\
    forall out2,
      let answer := exec_command cf C P co po (x509_gen cf C P co po) cmd loc (mkWorld s c p out2) in
      ((N.to_nat n <= length out2)%nat ->
         exists o2, answer = (Ok n, mkWorld s' c' p' o2) /\ length o2 = length out2 /\
           firstn (N.to_nat n) o2 = firstn (N.to_nat n) out') /\
      ((length out2 < N.to_nat n)%nat ->
         exists e w2, answer = (Err e, w2) /\ (e = InvalidResponseBuf \/ e = InternalError CertSizeOverflow)).
Proof.
  intros cf C P co po cmd loc s c p out n s' c' p' out' Hcf W Wc Wl H.
  assert (W' : wf cf s') by exact (command_keeps_wf cf Hcf co po cmd loc (mkWorld s c p out) _ _ W Wc Wl H).
  exact (command_measured cf co po cmd loc _ _ _ H (wf_handles16 cf s' W')).
Qed.
Print Assumptions C30_commands.

(** ** C45: response structures have room for the response *)

(** What a command answers when run with some buffer is what [execute] answers: the
    first [n] bytes of the structure are the answer, and state, back end and platform
    are left the same. *)
Definition same_in_execute (cf : config) {C P} (co : crypto_ops C) (po : platform_ops P) cmd loc w n (w' : world C P) : Prop :=
  exists resp, execute cf C P co po (x509_gen cf C P co po) cmd loc w = (Ok resp, mkWorld (w_st w') (w_c w') (w_p w') (w_out w)) /\
    firstn (N.to_nat n) (response_bytes resp) = firstn (N.to_nat n) (w_out w') /\ answers cf cmd resp.

(** All commands but requests for CSRs: MAX_CERT_SIZE is enough for every certificate, of
    a leaf or an exported CDI, however long the chain and whatever it measures, if
    issuer and alternative name together have at most 97 bytes. *)
Theorem C45_all_but_requests :
  forall cf C P (co : crypto_ops C) (po : platform_ops P) a b cmd loc w n w',
    config_ok cf -> sizes_chosen cf -> keys_fit cf co -> signatures_fit cf co -> names_room po a b -> a + b <= 97 ->
    wf cf (w_st w) -> command_wf cf cmd -> for_profile cf cmd -> u32 loc -> ~ asks_request cmd ->
    exec_command cf C P co po (x509_gen cf C P co po) cmd loc w = (Ok n, w') ->
    same_in_execute cf co po cmd loc w n w'.
Proof.
  intros cf C P co po a b cmd loc w n w' Hcf HZ HK HS HN HAB W Wc Wp Wl HA H.
  apply (execute_measured cf Hcf co po cmd loc w n w' W Wc Wl H).
  apply (command_fits cf Hcf co po HS HK HZ a b HN HAB _ _ _ _ _ W Wc Wp (fun A => False_ind _ (HA A)) H).
Qed.
Print Assumptions C45_all_but_requests.

(** Requests for CSRs, if the chain from the addressed context to its root does not
    take up all slots.  Missing: chains of MAX_HANDLES contexts (see
    [C45_requests_refuted]). *)
Theorem C45_requests_partial :
  forall cf C P (co : crypto_ops C) (po : platform_ops P) a b cmd loc w n w' h i cts,
    config_ok cf -> sizes_chosen cf -> keys_fit cf co -> signatures_fit cf co -> names_room po a b -> a + b <= 97 ->
    wf cf (w_st w) -> command_wf cf cmd -> u32 loc -> asks_request cmd ->
    presents cmd h -> first_slot (names (w_st w) h loc) i -> lineage (w_st w) i cts -> (length cts < max_handles cf)%nat ->
    exec_command cf C P co po (x509_gen cf C P co po) cmd loc w = (Ok n, w') ->
    same_in_execute cf co po cmd loc w n w'.
Proof.
  intros cf C P co po a b cmd loc w n w' h i cts Hcf HZ HK HS HN HAB W Wc Wl HA HP HF HL Hlt H.
  apply (execute_measured cf Hcf co po cmd loc w n w' W Wc Wl H).
  exact (request_fits cf Hcf co po HK HS HZ a b HN HAB _ _ _ _ _ h i cts W Wc HA HP HF HL Hlt H).
Qed.
Print Assumptions C45_requests_partial.

(** ** The reference platform and back end *)
Lemma reference_signatures {R} (pr : primitives R) dig cf : signatures_fit cf (rust_ops R pr (profile_alg (prof cf)) dig).
Proof.
  split; intros d c g c' H; apply (f_equal fst) in H.
  - change (alias_sign R pr (profile_alg (prof cf)) d = inl g) in H. unfold alias_sign in H. destruct (prof cf); cbn [profile_alg sig_of] in *.
    + destruct (pr_alias256 pr); [|discriminate]. unfold ecdsa256_sign in H. destruct (ecdsa_prehash _ _); [|discriminate].
      destruct (pr_sign256 _ _ _) as [[]|]; [|discriminate]. injection H as <-. exact I.
    + destruct (pr_alias384 pr); [|discriminate]. unfold ecdsa384_sign in H. destruct (ecdsa_prehash _ _); [|discriminate].
      destruct (pr_sign384 _ _ _) as [[]|]; [|discriminate]. injection H as <-. exact I.
    + destruct (pr_alias_mldsa pr); [|discriminate]. unfold mldsa_sign in H. destruct d; try discriminate; injection H as <-; exact I.
  - change (key_sign R pr (profile_alg (prof cf)) (rc_key c) d = inl g) in H. unfold key_sign in H. destruct (prof cf); cbn [profile_alg sig_of] in *.
    + destruct (pr_valid256 _ _); [|discriminate]. unfold ecdsa256_sign in H. destruct (ecdsa_prehash _ _); [|discriminate].
      destruct (pr_sign256 _ _ _) as [[]|]; [|discriminate]. injection H as <-. exact I.
    + destruct (pr_valid384 _ _); [|discriminate]. unfold ecdsa384_sign in H. destruct (ecdsa_prehash _ _); [|discriminate].
      destruct (pr_sign384 _ _ _) as [[]|]; [|discriminate]. injection H as <-. exact I.
    + destruct (Nat.eqb _ _); [|discriminate]. unfold mldsa_sign in H. destruct d; try discriminate; injection H as <-; exact I.
Qed.
Lemma reference_names chain issuer serial ski : names_room (default_platform chain issuer serial ski) (N.of_nat (length issuer)) 0.
Proof.
  split; [|split].
  - intros p n b p' H. apply (f_equal (fun x => fst (fst x))) in H. cbn [default_platform po_issuer_name] in H. unfold default_issuer_name in H.
    destruct (Nat.ltb _ _); [discriminate|]. injection H as <-. lia.
  - intros p i n p' H. apply (f_equal fst) in H. cbn [default_platform po_signer_identifier fst] in H.
    unfold default_signer_identifier, default_issuer_name in H. destruct (Nat.ltb _ _); [discriminate|]. destruct (N.ltb _ _); [discriminate|].
    destruct (Nat.ltb _ _); [discriminate|]. injection H as <- _. unfold len. rewrite firstn_length. lia.
  - intros p o p' H. apply (f_equal fst) in H. discriminate H.
Qed.
(** With the reference platform and back end nothing has to be assumed about the
    environment but an issuer name of at most 97 bytes. *)
Theorem C45_reference :
  forall cf R (pr : primitives R) dig chain issuer serial ski cmd loc w n w',
    let co := rust_ops R pr (profile_alg (prof cf)) dig in
    let po := default_platform chain issuer serial ski in
    config_ok cf -> sizes_chosen cf -> (length issuer <= 97)%nat ->
    wf cf (w_st w) -> command_wf cf cmd -> for_profile cf cmd -> u32 loc -> ~ asks_request cmd ->
    exec_command cf (rust_c R) unit co po (x509_gen cf (rust_c R) unit co po) cmd loc w = (Ok n, w') ->
    same_in_execute cf co po cmd loc w n w'.
Proof.
  intros cf R pr dig chain issuer serial ski cmd loc w n w' co po Hcf HZ HI.
  apply (C45_all_but_requests cf _ _ co po (N.of_nat (length issuer)) 0); auto; [|apply reference_signatures|apply reference_names|lia].
  exact (rust_keys_fit pr (profile_alg (prof cf)) dig cf eq_refl).
Qed.
Print Assumptions C45_reference.

(** The reference platform with an issuer name of 27 bytes and a serial number of 20. *)
Definition big_platform := default_platform ref_chain (48 :: 25 :: 4 :: 23 :: repeat 1 23) (repeat 1 20) (repeat 7 20).
Definition big_env : env :=
  {| e_C := rust_c N; e_P := unit; e_crypto := ref_ops; e_platform := big_platform;
     e_cert := x509_gen toy_cf (rust_c N) unit ref_ops big_platform |}.
Definition big_exec (cmd : command) (loc : N) : world (rust_c N) unit -> result N * world (rust_c N) unit :=
  exec_command toy_cf (rust_c N) unit ref_ops big_platform (x509_gen toy_cf (rust_c N) unit ref_ops big_platform) cmd loc.
Definition big_run (l : list (command * N)) : world (rust_c N) unit :=
  toy_run big_env l (mkWorld (state_new toy_cf all_features 0) (rust_new N 3) tt (repeat 0 (N.to_nat 2100))).
Definition derive_svn (t svn : N) : command * N :=
  (CmdDeriveContext {| dc_handle := H0; dc_data := data t; dc_flags := 2 ^ 28 + 2 ^ 25; dc_tci_type := t; dc_target_locality := 0; dc_svn := svn |}, 0).
Definition chain_with (svns : list N) : list (command * N) :=
  (init_default, 0) :: map (derive_svn 7) svns.
Lemma big_reachable svns : Forall u32 svns -> reachable toy_cf (w_st (big_run (chain_with svns))).
Proof.
  intros F. unfold reachable, big_run. apply (toy_run_history any_env any_command big_env I (chain_with svns) []).
  - apply hi_new. reflexivity.
  - unfold chain_with. apply Forall_cons; [split; reflexivity|]. rewrite Forall_map. revert F. apply Forall_impl. intros v Hv.
    split; [|reflexivity]. cbn [fst derive_svn command_wf]. repeat split; try reflexivity; try exact Hv; repeat constructor.
  - intros; exact I.
Qed.
Lemma big_ok n w cmd loc : fst (big_exec cmd loc w) = Ok n ->
  exec_command toy_cf (rust_c N) unit ref_ops big_platform (x509_gen toy_cf (rust_c N) unit ref_ops big_platform) cmd loc w = (Ok n, snd (big_exec cmd loc w)).
Proof. intros H. rewrite <- H. apply surjective_pairing. Qed.

Definition full : list (command * N) := chain_with [2 ^ 32 - 1; 2 ^ 32 - 1; 2 ^ 32 - 1].
(** With 4 slots, a chain of 4 contexts with SVNs of 2^32 - 1 and a platform and back end
    as in the reference implementation, CertifyKey for a CSR needs 1249 bytes and succeeds
    if it gets them.  The response structure has 1244 bytes, so [execute] fails.  The
    certificate for the same context fits. *)
Theorem C45_requests_refuted :
  exists cf R (pr : primitives R) chain issuer serial ski cmd w n w',
    let co := rust_ops R pr (profile_alg (prof cf)) AlgSha256 in
    let po := default_platform chain issuer serial ski in
    config_ok cf /\ sizes_chosen cf /\ length issuer = 27%nat /\ length serial = 20%nat /\
    reachable cf (w_st w) /\ command_wf cf cmd /\ asks_request cmd /\
    exec_command cf (rust_c R) unit co po (x509_gen cf (rust_c R) unit co po) cmd 0 w = (Ok n, w') /\
    fst (execute cf (rust_c R) unit co po (x509_gen cf (rust_c R) unit co po) cmd 0 w) = Err (InternalError CertSizeOverflow).
Proof.
  exists toy_cf, N, toy_pr, ref_chain, (48 :: 25 :: 4 :: 23 :: repeat 1 23), (repeat 1 20), (repeat 7 20), (certify H0 1), (big_run full), 1249,
    (snd (big_exec (certify H0 1) 0 (big_run full))).
  split; [exact toy_cf_ok|]. split; [right; reflexivity|]. split; [reflexivity|]. split; [reflexivity|].
  split; [apply big_reachable; repeat constructor|]. split; [repeat split; repeat constructor|]. split; [discriminate|].
  split; [apply big_ok; vm_compute; reflexivity|]. vm_compute. reflexivity.
Qed.
Print Assumptions C45_requests_refuted.
Example C45_case :
  let w := big_run full in let w2 := big_run (chain_with [2 ^ 32 - 1; 2 ^ 32 - 1]) in
  wf toy_cf (w_st w) /\ wf toy_cf (w_st w2) /\ command_wf toy_cf (certify H0 0) /\ command_wf toy_cf (certify H0 1) /\
  ~ asks_request (certify H0 0) /\ asks_request (certify H0 1) /\
  keys_fit toy_cf ref_ops /\ signatures_fit toy_cf ref_ops /\ names_room big_platform 27 0 /\
  (exists w', big_exec (certify H0 0) 0 w = (Ok 1141, w')) /\ (exists w', big_exec (certify H0 1) 0 w2 = (Ok 1124, w')) /\
  wire_size toy_cf (certify H0 0) = 1244 /\
  presents (certify H0 1) H0 /\ first_slot (names (w_st w2) H0 0) 2 /\ exists cts, lineage (w_st w2) 2 cts /\ length cts = 3%nat.
Proof.
  intros w w2. split; [apply (reachable_wf toy_cf toy_cf_ok), big_reachable; repeat constructor|].
  split; [apply (reachable_wf toy_cf toy_cf_ok), big_reachable; repeat constructor|].
  split; [repeat split; repeat constructor|]. split; [repeat split; repeat constructor|]. split; [intros X; apply X; reflexivity|].
  split; [discriminate|]. split; [apply (rust_keys_fit toy_pr); reflexivity|]. split; [apply reference_signatures; reflexivity|].
  split; [apply reference_names|].
  split; [eexists; apply big_ok; vm_compute; reflexivity|]. split; [eexists; apply big_ok; vm_compute; reflexivity|].
  split; [reflexivity|]. split; [reflexivity|]. split.
  { split; [eexists; vm_compute; repeat split|]. intros j Hj (c & A & B & _).
    assert (j = 0%nat \/ j = 1%nat) as [-> | ->] by lia; vm_compute in A; injection A as <-; discriminate B. }
  destruct (chain_fn 4 (w_st w2) 2) as [cts|] eqn:E; [|vm_compute in E; discriminate]. exists cts. split; [exact (chain_fn_ok _ _ _ _ E)|].
  assert (L : option_map (@length context) (chain_fn 4 (w_st w2) 2) = Some 3%nat) by (vm_compute; reflexivity).
  rewrite E in L. cbn [option_map] in L. congruence.
Qed.

(** build.rs sizes the response structures for P-256 as soon as that feature is on,
    also for an instance with profile P-384: nothing forbids both features, and
    [sizes_chosen] does not hold.  Then not even certificates fit. *)
Definition both_cf : config :=
  {| max_handles := 4; feat_p256 := true; feat_p384 := true; feat_mldsa := false; prof := P384Sha384; fuel := 5 |}.
Definition both_ops := rust_ops N toy_pr AlgEcdsa384 AlgSha384.
Definition both_gen := x509_gen both_cf (rust_c N) unit both_ops big_platform.
Definition both_exec (cmd : command) (loc : N) : world (rust_c N) unit -> result N * world (rust_c N) unit :=
  exec_command both_cf (rust_c N) unit both_ops big_platform both_gen cmd loc.
Definition both_w0 : world (rust_c N) unit := mkWorld (state_new both_cf all_features 0) (rust_new N 3) tt (repeat 0 (N.to_nat 2100)).
Definition both_run (l : list (command * N)) : world (rust_c N) unit := fold_left (fun w cl => snd (both_exec (fst cl) (snd cl) w)) l both_w0.
Definition derive_both : command * N :=
  (CmdDeriveContext {| dc_handle := H0; dc_data := repeat 7 48; dc_flags := 2 ^ 28 + 2 ^ 25; dc_tci_type := 7; dc_target_locality := 0; dc_svn := 0 |}, 0).
Definition certify_both : command :=
  CmdCertifyKey (CertifyP384 {| ck_handle := H0; ck_flags := 0; ck_format := 0; ck_label := repeat 3 48 |}).
Lemma both_reachable l : Forall (fun cl => command_wf both_cf (fst cl) /\ u32 (snd cl)) l -> reachable both_cf (w_st (both_run l)).
Proof.
  unfold both_run. assert (R : reachable both_cf (w_st both_w0)) by (exists []; apply hi_new; reflexivity).
  revert R. generalize both_w0 as w. induction l as [|[cmd loc] l IH]; intros w R F; [exact R|].
  inversion F as [|? ? [F1 F2] F3]; subst. cbn [fold_left fst snd]. apply IH; [|exact F3].
  destruct R as [h R]. destruct (both_exec cmd loc w) as [r w1] eqn:EX. exists (EvCommand cmd loc r :: h).
  apply (hi_command both_cf any_env any_command h (w_st w)
           {| e_C := rust_c N; e_P := unit; e_crypto := both_ops; e_platform := big_platform; e_cert := both_gen |}); try exact I; auto.
  destruct w as [s c p o], w1 as [s1 c1 p1 o1]. exists c, p, o, c1, p1, o1. exact EX.
Qed.
Lemma both_ok n w cmd loc : fst (both_exec cmd loc w) = Ok n ->
  exec_command both_cf (rust_c N) unit both_ops big_platform both_gen cmd loc w = (Ok n, snd (both_exec cmd loc w)).
Proof. intros H. rewrite <- H. apply surjective_pairing. Qed.
Theorem C45_sizes_refuted :
  exists cf R (pr : primitives R) chain issuer serial ski cmd w n w',
    let co := rust_ops R pr (profile_alg (prof cf)) AlgSha384 in
    let po := default_platform chain issuer serial ski in
    config_ok cf /\ length issuer = 27%nat /\ length serial = 20%nat /\
    reachable cf (w_st w) /\ command_wf cf cmd /\ asks_certificate cmd /\
    exec_command cf (rust_c R) unit co po (x509_gen cf (rust_c R) unit co po) cmd 0 w = (Ok n, w') /\
    fst (execute cf (rust_c R) unit co po (x509_gen cf (rust_c R) unit co po) cmd 0 w) = Err (InternalError CertSizeOverflow).
Proof.
  pose (w := both_run [(init_default, 0); derive_both; derive_both; derive_both]).
  exists both_cf, N, toy_pr, ref_chain, (48 :: 25 :: 4 :: 23 :: repeat 1 23), (repeat 1 20), (repeat 7 20), certify_both, w, 1370, (snd (both_exec certify_both 0 w)).
  split; [unfold config_ok; cbn; repeat split; lia|]. split; [reflexivity|]. split; [reflexivity|].
  split; [apply both_reachable; repeat (apply Forall_cons; [split; [cbn [fst command_wf derive_both init_default]; repeat split; try reflexivity; repeat constructor|reflexivity]|]); apply Forall_nil|].
  split; [repeat split; repeat constructor|]. split; [reflexivity|].
  split; [apply both_ok; vm_compute; reflexivity|]. vm_compute. reflexivity.
Qed.
Print Assumptions C45_sizes_refuted.
