(** Props_Harness.v -- C52: the reference platform and back end: every error that is not
    the client's, availability, atomicity, and the fuzz harness. *)
From Verif Require Import Base Errors Types StateOps Env Wire Instance Commands RespBuf Response X509 X509Cert RustCrypto DefaultPlatform Simulator
  Lib Spec Exec Effects Forest History WireSpec Contract Codec Steps Reach CommandSpecs Responses Execute Walk Measure Reasons Explain Avail Der X509Spec X509Cmd X509Facts
  X509Fit X509Fail X509Sane PlatformProofs RustProofs Trace TraceCmds TraceRust RefFaults Props_Commands Props_Avail Props_Reference Props_Size Props_Fail Props_Calls Toy.
Open Scope N_scope.

(** What is assumed about the artifacts and crates of the reference implementation, and
    about the configuration. *)
Record reference (cf : config) {R} (pr : primitives R) (dig : digest_alg) (chain issuer serial ski : bytes) : Prop := {
  rf_config : config_ok cf;
  rf_sizes : sizes_chosen cf;
  rf_sound : sound pr (profile_alg (prof cf)) dig;
  rf_digest : digest_alg_size dig = tci_size cf;
  rf_artifacts : artifacts_fit chain issuer serial ski;
  rf_fuel : (length chain < 2048 * (fuel cf - 1))%nat
}.

Lemma wire_fits cf cmd : WireSpec.for_profile cf cmd -> Fits.for_profile cf cmd.
Proof. destruct cmd; try (intros; exact Logic.I). destruct c; cbn [WireSpec.for_profile Fits.for_profile sign_profile]; intros H; symmetry; apply H. Qed.

(** ** Errors *)

(** Any command, in any reachable state, in a buffer of the size of its response type:
    the only errors that are not the client's are a derived secret that ECDSA does not
    accept, a second export of a CDI, the end of the certificate chain, eight unusable
    handles drawn in a row, and a certificate signing request for a chain of contexts
    that takes all slots (C45). *)
Theorem C52_errors :
  forall cf R (pr : primitives R) dig chain issuer serial ski cmd loc w e w',
    let co := rust_ops R pr (profile_alg (prof cf)) dig in
    let po := default_platform chain issuer serial ski in
    reference cf pr dig chain issuer serial ski -> reachable cf (w_st w) -> command_wf cf cmd -> WireSpec.for_profile cf cmd ->
    (response_size cf cmd <= length (w_out w))%nat ->
    exec_command cf (rust_c R) unit co po (x509_gen cf (rust_c R) unit co po) cmd loc w = (Err e, w') ->
    environmental e -> ref_reason cf pr dig chain cmd loc w w' e.
Proof.
  intros cf R pr dig chain issuer serial ski cmd loc w e w' co po [Hcf Hz So Hd Ha Hfu] Hr HW FP HR H EN.
  pose proof Ha as (_ & HI & _).
  assert (RE : env_reason cf co po (N.of_nat (length issuer)) 0 cmd loc (w_st w) (length (w_out w)) e).
  { destruct (C42_reference cf R pr dig chain issuer serial ski cmd loc w e w' Hcf ltac:(lia) Hr HW H) as [X|X];
      [eapply refusal_reason; exact X|eapply writer_reason; exact X]. }
  destruct e; try contradiction; cbn [env_reason ref_reason] in *.
  - destruct RE as [-> | [(-> & l & d & X & Y)|[(-> & o & b & p & n & b' & p' & X & Y)|(-> & X)]]].
    + left. split; [reflexivity|]. destruct (C51_calls _ _ _ _ _ _ _ _ _ _ H) as (t & sg & H1 & _ & _ & _ & H4). exists t. auto.
    + destruct Y. rewrite (ref_digest pr cf dig So _ _ X). exact Hd.
    + destruct (ref_chunk chain issuer serial ski _ _ _ _ _ _ X Y).
    + right. split; [reflexivity|]. eapply (writer_overflow cf Hcf co po (N.of_nat (length issuer)) 0 Hz); eauto; [lia|]. eapply reachable_wf; eauto.
  - destruct RE as [X|[X|[X|(off & size & p & b' & p' & -> & X & Y)]]].
    + destruct (ref_vendor _ _ _ _ _ X).
    + destruct (ref_ueid _ _ _ _ _ X).
    + destruct (ref_names _ _ _ _ Ha _ X).
    + apply (ref_piece _ _ _ _ Ha) in Y as [-> Y]; [|exact X]. split; [reflexivity|]. exists off, size. auto.
  - destruct RE as [X|X]; [destruct (ref_rand _ _ _ _ X)|].
    destruct (C51_reference cf R pr (profile_alg (prof cf)) dig unit po cmd loc w e w' So eq_refl (wire_fits cf cmd FP) H) as [(-> & Y & Z)|[(Y & Z & Z')|(-> & _)]].
    + left. auto.
    + right. auto.
    + destruct (ref_cert_size pr cf dig So X).
Qed.
Print Assumptions C52_errors.

(** ** Availability *)

Lemma fixed_response cf cmd : (match cmd with CmdSign _ => feat_p384 cf = false /\ feat_mldsa cf = false | _ => True end) ->
  (fixed_size cf cmd <= response_size cf cmd)%nat.
Proof.
  intros HS. destruct cmd as [|f|d|c|c|h f|h|off size|u]; unfold response_size, response_layout.
  - apply Nat.leb_le. reflexivity.
  - apply Nat.leb_le. reflexivity.
  - unfold df_export_cdi. rewrite contains_bit. cbn [fixed_size]. destruct (N.testbit (dc_flags d) 23);
      unfold list_sum, exported_cdi_size, handle_size; cbn [app fold_right]; lia.
  - destruct c; cbn [certify_profile fixed_size]; unfold pk_size, list_sum, handle_size, mldsa87_pk_size; cbn [app fold_right]; lia.
  - destruct HS as [H1 H2]. cbn [fixed_size]. rewrite H1, H2. unfold list_sum, sig_size, handle_size. cbn [app fold_right].
    destruct (sign_profile c); [lia|lia|]. apply Nat.leb_le. vm_compute. reflexivity.
  - apply Nat.leb_le. reflexivity.
  - apply Nat.leb_le. reflexivity.
  - apply Nat.leb_le. vm_compute. reflexivity.
  - apply Nat.leb_le. reflexivity.
Qed.

(** The reference environment never aborts. *)
Theorem C52_no_crash :
  forall cf R (pr : primitives R) dig chain issuer serial ski cmd loc w k w',
    let co := rust_ops R pr (profile_alg (prof cf)) dig in
    let po := default_platform chain issuer serial ski in
    config_ok cf -> chain_fits chain -> (length chain < 2048 * (fuel cf - 1))%nat -> reachable cf (w_st w) ->
    exec_command cf (rust_c R) unit co po (x509_gen cf (rust_c R) unit co po) cmd loc w <> (Crash k, w').
Proof.
  intros cf R pr dig chain issuer serial ski cmd loc w k w' co po Hcf HC HF Hr H.
  assert (ST : forall p, chain_stops po (fuel cf) 0 (repeat 0 2048) p).
  { intros p. assert (E : fuel cf = S (fuel cf - 1)) by (destruct Hcf as (_ & _ & X); lia). rewrite E.
    apply default_stops_from; [exact HC|apply repeat_length|exact HF]. }
  apply (command_explained cf Hcf _ _ co po _ (x509_keeps_size cf co po)) in H; [|eapply reachable_wf; eauto]. cbn [explained] in H.
  assert (NC : forall kd a o s b p out k c' p' out', x509_gen cf _ _ co po kd a o s b p out <> (Crash k, c', p', out')).
  { apply x509_returns; [exact Hcf|exact ST]. }
  destruct cmd; cbn [aborts] in H; try exact H.
  - destruct H as (_ & a & o & b & p & out & c' & p' & out' & X). eapply NC; exact X.
  - destruct H as (kd & a & o & b & p & out & c' & p' & out' & X). eapply NC; exact X.
  - destruct H as (h & i & _ & _ & _ & p & X). apply X. apply ST.
Qed.
Print Assumptions C52_no_crash.

(** A legitimate request to the reference environment succeeds, but for one of the
    reasons of [ref_reason]. *)
Theorem C52_available :
  forall cf R (pr : primitives R) dig chain issuer serial ski cmd loc w r w',
    let co := rust_ops R pr (profile_alg (prof cf)) dig in
    let po := default_platform chain issuer serial ski in
    reference cf pr dig chain issuer serial ski -> reachable cf (w_st w) -> command_wf cf cmd -> WireSpec.for_profile cf cmd ->
    legitimate cf po cmd loc (w_st w) ->
    (fixed_size cf cmd <= length (w_out w))%nat -> (response_size cf cmd <= length (w_out w))%nat ->
    exec_command cf (rust_c R) unit co po (x509_gen cf (rust_c R) unit co po) cmd loc w = (r, w') ->
    (exists n, r = Ok n) \/ exists e, r = Err e /\ ref_reason cf pr dig chain cmd loc w w' e.
Proof.
  intros cf R pr dig chain issuer serial ski cmd loc w r w' co po HR Hr HW FP HL R1 R2 H. pose proof HR as [Hcf Hz So Hd Ha Hfu].
  destruct r as [n|e|k]; [left; eauto| |].
  - right. exists e. split; [reflexivity|]. eapply C52_errors; eauto. pose proof Ha as (_ & HI & _).
    destruct (C42_reference cf R pr dig chain issuer serial ski cmd loc w e w' Hcf ltac:(lia) Hr HW H) as [X|X].
    + eapply refused_env; [|exact HL|exact R1|exact X]. intros d b sg b'. apply ref_variant; [exact So|apply Hcf].
    + eapply writer_env; eauto.
  - exfalso. eapply (C52_no_crash cf R pr dig chain issuer serial ski); eauto; try apply Ha; apply Hfu.
Qed.
Print Assumptions C52_available.

(** The simulator chooses the digest that goes with its profile, so all of this is true of it:
    a request that the state, locality and flags permit succeeds, or fails for one of the
    five reasons. *)
Theorem C52_simulator :
  forall cf R (pr : primitives R) chain issuer serial ski cmd loc w r w',
    let dig := backend_digest (prof cf) in
    let co := sim_ops cf R pr in
    let po := sim_platform chain issuer serial ski in
    config_ok cf -> prof cf = sim_profile cf -> sizes_chosen cf -> sound pr (profile_alg (prof cf)) dig -> artifacts_fit chain issuer serial ski ->
    (length chain < 2048 * (fuel cf - 1))%nat ->
    reachable cf (w_st w) -> command_wf cf cmd -> WireSpec.for_profile cf cmd -> legitimate cf po cmd loc (w_st w) ->
    (fixed_size cf cmd <= length (w_out w))%nat -> (response_size cf cmd <= length (w_out w))%nat ->
    exec_command cf (rust_c R) unit co po (x509_gen cf (rust_c R) unit co po) cmd loc w = (r, w') ->
    (exists n, r = Ok n) \/ exists e, r = Err e /\ ref_reason cf pr dig chain cmd loc w w' e.
Proof.
  intros cf R pr chain issuer serial ski cmd loc w r w' dig co po Hcf Hp Hz So Ha Hfu.
  apply (C52_available cf R pr dig chain issuer serial ski). constructor; try assumption.
  unfold dig, tci_size. rewrite Hp. unfold sim_profile. destruct (feat_p384 cf), (feat_mldsa cf); reflexivity.
Qed.
Print Assumptions C52_simulator.

(** ** Atomicity *)

(** A command that fails leaves the state as it was; the one exception is an
    UpdateContextMeasurement that could not draw the child's new handle, which has renewed
    the parent's. *)
Theorem C52_atomic :
  forall cf R (pr : primitives R) dig chain issuer serial ski cmd loc w e w',
    let co := rust_ops R pr (profile_alg (prof cf)) dig in
    let po := default_platform chain issuer serial ski in
    reference cf pr dig chain issuer serial ski -> reachable cf (w_st w) -> command_wf cf cmd -> WireSpec.for_profile cf cmd ->
    (fixed_size cf cmd <= length (w_out w))%nat -> 
    exec_command cf (rust_c R) unit co po (x509_gen cf (rust_c R) unit co po) cmd loc w = (Err e, w') ->
    w_st w' = w_st w \/
    exists u, cmd = CmdUpdateContextMeasurement u /\ update_parent u loc (w_st w) (w_st w') /\
      e = InternalError HandleGenerationExhausted /\ eight_draws cf pr dig w w'.
Proof.
  intros cf R pr dig chain issuer serial ski cmd loc w e w' co po [Hcf Hz So Hd Ha Hfu] Hr HW FP HR H.
  pose proof (reachable_wf cf Hcf _ Hr) as W.
  pose (en := {| e_C := rust_c R; e_P := unit; e_crypto := co; e_platform := po; e_cert := x509_gen cf (rust_c R) unit co po |}).
  assert (NB : e <> InvalidResponseBuf).
  { intros ->. pose proof Ha as (_ & HI & _).
    destruct (C42_reference cf R pr dig chain issuer serial ski cmd loc w _ w' Hcf ltac:(lia) Hr HW H) as [X|X]; [apply refusal_room in X; lia|eapply writer_room; exact X]. }
  destruct (C04_with_room cf en cmd loc w (Err e) w' Hcf W (x509_keeps_size cf co po) HR H ltac:(discriminate)) as [X|[(u & -> & X)|(c & h & -> & _ & Y & X)]].
  - left. exact X.
  - cbn [exec_command] in H. pose proof H as H0. apply update_atomic in H as [H|H]; [left; exact H| |exact NB].
    right. exists u. split; [reflexivity|]. split; [exact X|]. destruct H as [(ce & -> & H)|(-> & H)]; [destruct (ref_rand _ _ _ _ H)|].
    split; [reflexivity|]. destruct (C51_calls cf _ _ co po (CmdUpdateContextMeasurement u) loc _ _ _ H0) as (t & sg & H1 & _ & _ & _ & H4). exists t. auto.
  - left. eapply (certify_atomic cf co po); eauto. apply rust_keys_fit. reflexivity.
Qed.
Print Assumptions C52_atomic.

(** ** The fuzz harness *)

(** The random generator after [n] draws of 16 bytes. *)
Fixpoint after {R} (pr : primitives R) (n : nat) (g : R) : R :=
  match n with O => g | S n => after pr n (snd (pr_fill pr 16 g)) end.
(** It never yields zeros eight times in a row. *)
Definition lively {R} (pr : primitives R) : Prop :=
  forall g, exists n, (n < 8)%nat /\ to_buf 16 (fst (pr_fill pr 16 (after pr n g))) <> repeat 0 16.

Lemma draws_of {R} (pr : primitives R) sig dig bs : forall c c',
  performs (rust_ops R pr sig dig) c (map (fun b => EvRand 16 (inl b)) bs) c' ->
  forall n b, nth_error bs n = Some b -> b = fst (pr_fill pr 16 (after pr n (rc_rng c))).
Proof.
  induction bs as [|b0 bs IH]; intros c c' H n b E; [destruct n; discriminate|].
  cbn [map] in H. inversion H as [|? ? ? c1 ? M M2]; subst. cbn [makes co_rand_bytes rust_ops] in M. unfold rc_rand_bytes in M.
  destruct (pr_fill pr 16 (rc_rng c)) as [b1 g] eqn:F. pose proof (f_equal fst M) as M1. apply (f_equal snd) in M. cbn [fst snd] in M, M1. injection M1 as <-. subst c1.
  destruct n as [|n]; cbn [nth_error] in E.
  - injection E as <-. cbn [after]. rewrite F. reflexivity.
  - cbn [after]. rewrite F. cbn [snd]. exact (IH _ _ M2 n b E).
Qed.
Lemma performs_split {C} (co : crypto_ops C) t1 t2 : forall c c', performs co c (t1 ++ t2) c' -> exists c1, performs co c1 t2 c'.
Proof.
  induction t1 as [|x t1 IH]; intros c c' H; [exists c; exact H|]. cbn [app] in H. inversion H as [|? ? ? c1 ? _ M2]; subst. eapply IH. exact M2.
Qed.
Lemma lively_draws cf {R} (pr : primitives R) dig w w' : lively pr -> (forall c, In c (st_contexts (w_st w')) -> c_handle c = repeat 0 16) ->
  ~ eight_draws cf pr dig w w'.
Proof.
  intros L Z (t & H & t0 & bs & -> & Lb & F). apply performs_split in H as [c1 H].
  destruct (L (rc_rng c1)) as (n & Hn & N). destruct (nth_error bs n) as [b|] eqn:E; [|apply nth_error_None in E; lia].
  pose proof (draws_of _ _ _ _ _ _ H n b E) as Eb. rewrite Forall_forall in F. specialize (F b (nth_error_In _ _ E)).
  rewrite <- Eb in N. destruct F as [F|(c & F1 & F2)]; [contradiction|]. apply N. rewrite <- F2. apply Z. exact F1.
Qed.

(** No request makes the fuzz harness panic: with any input it neither aborts nor answers
    with an internal error, and contexts change only if the answer is a success. *)
Theorem C52_harness :
  forall cf R (pr : primitives R) chain issuer serial ski seed data,
    reference cf pr AlgSha256 chain issuer serial ski ->
    feat_p256 cf = true -> feat_p384 cf = false -> feat_mldsa cf = false -> (2 <= max_handles cf)%nat ->
    lively pr -> all_bytes data ->
    harness cf R pr chain issuer serial ski seed data = true.
Proof.
  intros cf R pr chain issuer serial ski seed data RF F1 F2 F3 HM LV HB. pose proof RF as [Hcf Hz So Hd Ha Hfu].
  assert (EP : prof cf = P256Sha256).
  { destruct Hcf as (_ & E & _). unfold profile_enabled in E. destruct (prof cf); congruence. }
  assert (ES : sim_ops cf R pr = rust_ops R pr (profile_alg (prof cf)) AlgSha256) by (unfold sim_ops; rewrite EP; reflexivity).
  unfold harness. rewrite ES. unfold sim_platform.
  set (co := rust_ops R pr (profile_alg (prof cf)) AlgSha256). set (po := default_platform chain issuer serial ski).
  pose (en := {| e_C := rust_c R; e_P := unit; e_crypto := co; e_platform := po; e_cert := x509_gen cf (rust_c R) unit co po |}).
  destruct (dpe_new cf (rust_c R) unit co po _) as [r w] eqn:EN.
  assert (US : u32 support_all) by reflexivity.
  destruct (C36_new_succeeds cf en support_all 0 _ _ _ _ _ Hcf US EN) as [->|(pe & p' & _ & X & _)]; [|discriminate].
  assert (Hr : reachable cf (w_st w)).
  { destruct w as [s c p o]. exists [EvNew (Ok tt)]. eapply (hi_create cf _ _ [] _ en); [apply hi_new, US|exact Logic.I| |intros; exact Logic.I].
    do 6 eexists. exact EN. }
  pose proof (reachable_wf cf Hcf _ Hr) as W.
  (* the state: one default context *)
  assert (ST : forall i c, at_slot (w_st w) i c -> c_handle c = repeat 0 16 /\ (live c -> c_parent c = ROOT)).
  { apply (dpe_new_fresh cf en support_all 0) in EN as [_ [[E0 X]|(_ & _ & a & p' & _ & _ & E0)]]; [| |reflexivity].
    - exfalso. destruct X as [X _]. discriminate (X eq_refl).
    - intros i c Hi. assert (E1 : w_st w = _) by exact E0. rewrite E1 in Hi. unfold auto_state in Hi. apply at_put_iff in Hi as [(<- & _ & ->)|[Hne Hi]]; [split; reflexivity|].
      change (at_slot (state_new cf support_all 0) i c) in Hi. apply new_slot in Hi as [_ ->]. split; [reflexivity|]. intros X. destruct X. reflexivity. }
  clear EN. destruct (deserialize_command cf data) as [cmd|e|k] eqn:ED; [|reflexivity|reflexivity].
  destruct (execute_serialized_command cf _ _ co po _ _ data w) as [r w'] eqn:EX.
  apply (serialized_spec cf) in EX; [|exact W]. rewrite ED in EX. destruct EX as (r0 & EX & Er).
  pose proof (deserialize_ok cf data cmd HB ED) as (HW & FP & _).
  apply (execute_spec cf Hcf) in EX as (r1 & w1 & EX & -> & Er1); [|apply x509_sane; exact Hcf|exact W|exact HW].
  set (w0 := mkWorld (w_st w) (w_c w) (w_p w) _) in EX. assert (L0 : length (w_out w0) = response_size cf cmd) by (rewrite size_wire; apply repeat_length).
  assert (RM : (fixed_size cf cmd <= length (w_out w0))%nat).
  { rewrite L0. apply fixed_response. destruct cmd; auto. }
  destruct r1 as [n|e|k].
  - destruct Er1 as (resp & -> & _ & _ & Hh). rewrite Er. assert (EC : response_code resp = 0).
    { unfold response_code. apply (f_equal rh_status) in Hh. destruct resp; exact Hh. }
    rewrite EC. rewrite andb_false_r. reflexivity.
  - subst r0. rewrite Er. cbn [response_code rh_status].
    assert (SW : w_st w1 = w_st w).
    { destruct (C52_atomic cf R pr AlgSha256 chain issuer serial ski cmd _ w0 e w1 RF Hr HW FP RM EX) as [X|(u & _ & (p & pc & _ & N & (X & _) & _) & _)]; [exact X|].
      exfalso. destruct X as (c & A1 & _ & _ & A4). apply N. rewrite <- A4. apply (ST _ _ A1). }
    cbn [w_st]. rewrite SW. unfold contexts_eqb. destruct (list_eq_dec _ _ _) as [_|X]; [|destruct X; reflexivity]. cbn [negb andb].
    destruct (N.eqb_spec (get_error_code e) (get_error_code (InternalError DeriveCtxRespSliceOob))) as [X|_]; [exfalso|reflexivity].
    assert (exists ic, e = InternalError ic) as [ic ->].
    { destruct e; try discriminate X; eauto; exfalso; revert X; cbn [get_error_code dpe_discr]; match goal with |- N.lor _ (_ ?y) = _ -> _ => destruct y end; discriminate. }
    apply (C52_errors cf R pr AlgSha256 chain issuer serial ski cmd _ w0 _ w1 RF Hr HW FP) in EX; [|lia|exact Logic.I].
    cbn [ref_reason] in EX. destruct EX as [[_ Q]|(_ & _ & h & i & cts & _ & _ & (l & Hp & Fa) & Lc)].
    + revert Q. apply lively_draws; [exact LV|]. intros c Hc. rewrite SW in Hc. apply In_nth_error in Hc as [i Hi]. apply (ST i c Hi).
    + inversion Hp as [? c A B D|? c l' A B D _]; subst; [|destruct (D (proj2 (ST _ _ A) B))].
      inversion Fa as [|? ? ? ? _ F4]; subst. inversion F4; subst. cbn [length] in Lc. lia.
  - exfalso. eapply (C52_no_crash cf R pr AlgSha256 chain issuer serial ski); [exact Hcf|apply Ha|exact Hfu| |exact EX]. exact Hr.
Qed.
Print Assumptions C52_harness.

(** ** Cases *)

Lemma toy_lively : lively toy_pr.
Proof.
  intros g. cbn [toy_pr pr_fill]. assert (B : forall x, x < 256 -> x <> 0 -> to_buf 16 (repeat x 16) <> repeat 0 16).
  { intros x Hx N E. rewrite to_buf_id in E; [|apply repeat_length|apply Forall_forall; intros y Hy; apply repeat_spec in Hy; subst; exact Hx]. injection E as E. contradiction. }
  destruct (N.eq_dec ((g + 1) mod 256) 0) as [E|E].
  - exists 1%nat. split; [lia|]. cbn [after toy_pr pr_fill fst snd]. apply B; [apply N.mod_lt; discriminate|].
    pose proof (N.div_mod (g + 1) 256 ltac:(discriminate)). pose proof (N.div_mod (g + 1 + 1) 256 ltac:(discriminate)). pose proof (N.mod_lt (g + 1 + 1) 256 ltac:(discriminate)). lia.
  - exists 0%nat. split; [lia|]. cbn [after toy_pr pr_fill fst]. apply B; [apply N.mod_lt; discriminate|exact E].
Qed.
Lemma toy_reference : reference toy_cf toy_pr AlgSha256 ref_chain [48; 0] [1; 2] (repeat 7 20).
Proof.
  split.
  - exact toy_cf_ok.
  - right; reflexivity.
  - apply C51_sound.
  - reflexivity.
  - split; [discriminate|]. repeat split; apply Nat.leb_le; reflexivity.
  - apply Nat.ltb_lt. vm_compute. reflexivity.
Qed.
(** InitializeContext with SIMULATION, as bytes. *)
Definition fuzz_input : bytes := [67; 69; 80; 68] ++ le_bytes 4 7 ++ le_bytes 4 3 ++ le_bytes 4 (2 ^ 31).
(** A generator that only knows zeros. *)
Definition dead_pr : primitives N :=
  {| pr_fill := fun n r => (repeat 0 n, r);
     pr_sha256 := pr_sha256 toy_pr; pr_sha384 := pr_sha384 toy_pr; pr_hkdf256 := pr_hkdf256 toy_pr; pr_hkdf384 := pr_hkdf384 toy_pr;
     pr_valid256 := pr_valid256 toy_pr; pr_valid384 := pr_valid384 toy_pr; pr_point256 := pr_point256 toy_pr; pr_point384 := pr_point384 toy_pr;
     pr_sign256 := pr_sign256 toy_pr; pr_sign384 := pr_sign384 toy_pr; pr_mldsa_public := pr_mldsa_public toy_pr;
     pr_mldsa_sign_mu := pr_mldsa_sign_mu toy_pr; pr_mldsa_sign := pr_mldsa_sign toy_pr;
     pr_alias256 := pr_alias256 toy_pr; pr_alias384 := pr_alias384 toy_pr; pr_alias_mldsa := pr_alias_mldsa toy_pr |}.

(** The hypotheses of C52_harness are met by the toy primitives; the input is a command,
    not noise; with a generator of zeros it makes the harness panic. *)
Example C52_harness_case :
  reference toy_cf toy_pr AlgSha256 ref_chain [48; 0] [1; 2] (repeat 7 20) /\ lively toy_pr /\ all_bytes fuzz_input /\
  deserialize_command toy_cf fuzz_input = Ok (CmdInitCtx (2 ^ 31)) /\
  harness toy_cf N toy_pr ref_chain [48; 0] [1; 2] (repeat 7 20) 3 fuzz_input = true /\
  harness toy_cf N dead_pr ref_chain [48; 0] [1; 2] (repeat 7 20) 3 fuzz_input = false.
Proof.
  split; [exact toy_reference|]. split; [exact toy_lively|]. split; [repeat constructor|]. 
  repeat (apply conj; [vm_compute; reflexivity|]). vm_compute. reflexivity.
Qed.

(** Errors that are not the client's: the end of the chain and a second export; a
    legitimate request that succeeds. *)
Example C52_case :
  let w := ref_run [(init_default, 0)] in let w2 := ref_run [(init_default, 0); (CmdDeriveContext ref_export, 0)] in
  reachable toy_cf (w_st w2) /\ command_wf toy_cf (CmdDeriveContext ref_export) /\ WireSpec.for_profile toy_cf (CmdDeriveContext ref_export) /\
  (response_size toy_cf (CmdDeriveContext ref_export) <= length (w_out w2))%nat /\
  fst (ref_exec (CmdDeriveContext ref_export) 0 w2) = Err (CryptoErr CEExportedCdiHandleDuplicateCdi) /\ rc_slots (w_c w2) <> [] /\
  fst (ref_exec (CmdGetCertificateChain 5 2) 0 w) = Err (PlatformErr PECertificateChain) /\
  legitimate toy_cf ref_platform (CmdGetCertificateChain 0 2) 0 (w_st w) /\
  (fixed_size toy_cf (CmdGetCertificateChain 0 2) <= length (w_out w))%nat /\
  fst (ref_exec (CmdGetCertificateChain 0 2) 0 w) = Ok 2064.
Proof.
  intros w w2. split; [apply ref_reachable; toy_wf|]. split; [vm_compute; repeat split; auto 20; repeat constructor|]. split; [exact Logic.I|].
  split; [apply Nat.leb_le; vm_compute; reflexivity|]. split; [vm_compute; reflexivity|]. split; [vm_compute; discriminate|]. split; [vm_compute; reflexivity|].
  split; [split; [discriminate|]; intros p; unfold ref_platform; rewrite platform_chain_more; [do 3 eexists; reflexivity|discriminate|reflexivity|discriminate|apply repeat_length]|].
  split; [apply Nat.leb_le; vm_compute; reflexivity|]. vm_compute. reflexivity.
Qed.
