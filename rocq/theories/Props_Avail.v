(** Props_Avail.v -- commands do not abort, every refusal has a reason and
    legitimate requests succeed: C21, C42, and the availability side of C06 and
    C36. *)
From Verif Require Import Base Errors Types StateOps Env Wire Instance Commands RespBuf Response Lib Spec Exec
  Effects Forest DestroyProofs History WireSpec Steps Codec Reach Frame Contract Denials CommandSpecs
  HandleProofs TreeProofs Responses Execute Walk Measure Reasons Explain Avail Toy Props_Codec.
Local Open Scope nat_scope.

(** ** C21: no command aborts *)

(** An abort (out-of-range index, arithmetic overflow, endless loop) can only
    come from the certificate writer or from a certificate chain that the
    platform does not end -- and only in the commands named by [aborts]. *)
Theorem C21_only_the_environment :
  forall cf e cmd loc w k w',
    config_ok cf -> wf cf (w_st w) -> keeps_size (e_cert e) ->
    exec_command cf (e_C e) (e_P e) (e_crypto e) (e_platform e) (e_cert e) cmd loc w = (Crash k, w') ->
    aborts cf (e_platform e) (e_cert e) cmd loc (w_st w) k.
Proof.
  intros cf e cmd loc w k w' Hcf W Hk H.
  exact (command_explained cf Hcf _ _ _ _ _ Hk _ _ _ _ _ W H).
Qed.
Print Assumptions C21_only_the_environment.

Definition writer_returns (e : env) : Prop :=
  forall kd a o s b p out k c' p' out', e_cert e kd a o s b p out <> (Crash k, c', p', out').
Definition chain_ends (cf : config) (e : env) : Prop :=
  forall p, chain_stops (e_platform e) (fuel cf) 0 (repeat 0%N 2048) p.

Theorem C21_commands :
  forall cf e cmd loc w r w',
    config_ok cf -> wf cf (w_st w) -> keeps_size (e_cert e) -> writer_returns e -> chain_ends cf e ->
    exec_command cf (e_C e) (e_P e) (e_crypto e) (e_platform e) (e_cert e) cmd loc w = (r, w') ->
    forall k, r <> Crash k.
Proof.
  intros cf e cmd loc w r w' Hcf W Hk Hw Hc H k ->. apply (C21_only_the_environment cf e) in H; auto.
  destruct cmd; cbn [aborts] in H; try contradiction.
  - destruct H as (_ & a & o & b & p & out & c' & p' & out' & X). eapply Hw; exact X.
  - destruct H as (kd & a & o & b & p & out & c' & p' & out' & X). eapply Hw; exact X.
  - destruct H as (h & i & _ & _ & _ & p & X). apply X, Hc.
Qed.
Print Assumptions C21_commands.

(** Any byte string at all, from any reachable state. *)
Theorem C21_bytes :
  forall cf e loc b s c p out r w',
    config_ok cf -> reachable cf s -> sane_writer cf (e_cert e) -> writer_returns e -> chain_ends cf e -> all_bytes b ->
    execute_serialized_command cf (e_C e) (e_P e) (e_crypto e) (e_platform e) (e_cert e) loc b
      (mkWorld s c p out) = (r, w') ->
    forall k, r <> Crash k.
Proof.
  intros cf e loc b s c p out r w' Hcf Rs Hsw Hw Hc Hb H k ->.
  assert (W : wf cf s) by (eapply reachable_wf; eauto).
  assert (Hk : keeps_size (e_cert e)) by (intros ? ? ? ? ? ? ? ? ? ? ? X; apply (Hsw _ _ _ _ _ _ _ _ _ _ _ X)).
  apply (C23_serialized_command cf e) in H; auto.
  destruct (C22_rejects cf b Hb) as (_ & _ & NC & _).
  assert (PW : forall cmd, deserialize_command cf b = Ok cmd -> command_wf cf cmd) by (intros cmd X; apply deserialize_ok in X; [apply X|exact Hb]).
  destruct (deserialize_command cf b) as [cmd|er|k']; [|destruct H; discriminate|destruct (NC k' eq_refl)].
  destruct H as (r0 & H & X). destruct r0 as [resp|er|k0]; try discriminate.
  specialize (PW cmd eq_refl). apply (C23_execute cf e) in H as (r1 & w1 & H & _ & Y); auto.
  destruct r1 as [n|er|k1].
  - destruct Y as (? & Y & _); discriminate.
  - discriminate.
  - eapply (C21_commands cf e cmd loc); [exact Hcf| |exact Hk|exact Hw|exact Hc|exact H|reflexivity]. exact W.
Qed.
Print Assumptions C21_bytes.

(** Creating instances does not abort either. *)
Lemma init_nocrash cf e f loc w k w' :
  config_ok cf -> wf cf (w_st w) -> exec_init cf (e_C e) (e_P e) (e_crypto e) f loc w <> (Crash k, w').
Proof.
  intros Hcf W H.
  assert (K : keeps_size (fun (_ : cert_kind) (_ : cert_args) (_ : nat) (_ : state) (c : e_C e) (p : e_P e) (o : bytes) =>
                (@Err cert_result InvalidArgument, c, p, o))) by (intros ? ? ? ? ? ? ? ? ? ? ? X; congruence).
  exact (command_explained cf Hcf _ _ (e_crypto e) (e_platform e) _ K (CmdInitCtx f) loc w _ _ W H).
Qed.

Lemma new_nocrash cf e w k w' :
  config_ok cf -> wf cf (w_st w) -> dpe_new cf (e_C e) (e_P e) (e_crypto e) (e_platform e) w <> (Crash k, w').
Proof.
  intros Hcf W H. unfold dpe_new in H. mstep H. mstep H; [|apply ret_inv in H as [H _]; discriminate].
  apply bind_inv in H as [(a & w1 & E & H)|[(er & E & X)|(k1 & E & X)]]; [|discriminate|revert E; apply nocrash_platform].
  pose proof (keeps_platform _ _ _ _ E) as [K1 Ko1].
  unfold bind, with_out in H.
  match type of H with context [exec_init ?f ?g ?h ?i ?j ?k ?l] =>
    destruct (exec_init f g h i j k l) as [r1 wx] eqn:EX end.
  destruct r1 as [n|er|k1]; inversion H; subst.
  eapply init_nocrash; [exact Hcf| |exact EX]. cbn [w_st]. rewrite K1; exact W.
Qed.

Theorem C21_new :
  forall cf e s r s', config_ok cf -> reachable cf s -> creates cf e s r s' -> forall k, r <> Crash k.
Proof.
  intros cf e s r s' Hcf R (c & p & o & c' & p' & o' & H) k ->.
  eapply new_nocrash; [exact Hcf| |exact H]. eapply reachable_wf; eauto.
Qed.
Print Assumptions C21_new.

(** Non-vacuity: the toy environment meets the hypotheses; and without the
    hypothesis about the chain the claim is false. *)
Lemma toy_writer_returns rand pk : writer_returns (toy_env_with rand pk).
Proof.
  intros kd a o s b p out k c' p' out' H. cbn [toy_env_with e_cert] in H. unfold toy_cert in H.
  destruct (Nat.leb (o + 4) (length out)); discriminate.
Qed.
Lemma toy_chain_ends rand pk : chain_ends toy_cf (toy_env_with rand pk).
Proof.
  intros []. change (fuel toy_cf) with (S (S 3)). eapply cs_more; [reflexivity|reflexivity|].
  eapply cs_end. reflexivity.
Qed.
Example C21_hypotheses :
  keeps_size (e_cert toy_env) /\ writer_returns toy_env /\ chain_ends toy_cf toy_env /\ wf toy_cf (toy_state [(init_default, 5%N)]).
Proof.
  split; [intros ? ? ? ? ? ? ? ? ? ? ? X; apply (toy_cert_sane toy_cf _ _ _ _ _ _ _ _ _ _ _ _ X)|].
  split; [apply toy_writer_returns|]. split; [apply toy_chain_ends|].
  eapply reachable_wf; [exact toy_cf_ok|apply toy_reachable; toy_wf].
Qed.

(** A platform that answers 0 bytes for ever. *)
Definition endless_platform : platform_ops unit :=
  {| po_certificate_chain := fun _ _ buf p => (inl 0%N, buf, p);
     po_issuer_name := po_issuer_name toy_platform; po_signer_identifier := po_signer_identifier toy_platform;
     po_issuer_key_identifier := po_issuer_key_identifier toy_platform;
     po_vendor_id := po_vendor_id toy_platform; po_vendor_sku := po_vendor_sku toy_platform;
     po_auto_init_locality := po_auto_init_locality toy_platform; po_cert_validity := po_cert_validity toy_platform;
     po_subject_alt_name := po_subject_alt_name toy_platform; po_ueid := po_ueid toy_platform |}.
Definition endless_env : env :=
  {| e_C := toy_c; e_P := unit; e_crypto := toy_crypto counting; e_platform := endless_platform;
     e_cert := toy_cert (PkEcdsa256 [1%N] [2%N]) |}.
Theorem C21_endless_chain_refuted :
  exists cf e s cmd loc c p out k w', config_ok cf /\ reachable cf s /\ command_wf cf cmd /\ keeps_size (e_cert e) /\
    writer_returns e /\
    exec_command cf (e_C e) (e_P e) (e_crypto e) (e_platform e) (e_cert e) cmd loc (mkWorld s c p out) = (Crash k, w').
Proof.
  exists toy_cf, endless_env, (toy_state [(init_default, 0%N); (derive H0 (2 ^ 30 + 2 ^ 28) 7, 0%N)]), (sign H0), 0%N,
    toy_c0, tt, toy_buf.
  match goal with |- exists k w', ?A => idtac end.
  destruct (exec_command toy_cf toy_c unit (toy_crypto counting) endless_platform (toy_cert (PkEcdsa256 [1%N] [2%N])) (sign H0) 0
       (mkWorld (toy_state [(init_default, 0%N); (derive H0 (2 ^ 30 + 2 ^ 28) 7, 0%N)]) toy_c0 tt toy_buf)) as [r w'] eqn:X.
  assert (R : exists k, r = Crash k).
  { apply (f_equal fst) in X. cbn [fst] in X. rewrite <- X. vm_compute. eexists; reflexivity. }
  destruct R as (k & ->). exists k, w'. split; [exact toy_cf_ok|]. split; [apply toy_reachable; toy_wf|].
  split; [vm_compute; repeat split; auto 20; repeat constructor|].
  split; [intros ? ? ? ? ? ? ? ? ? ? ? Y; apply (toy_cert_sane toy_cf _ _ _ _ _ _ _ _ _ _ _ _ Y)|].
  split; [|exact X]. exact (toy_writer_returns counting (PkEcdsa256 [1%N] [2%N])).
Qed.
Print Assumptions C21_endless_chain_refuted.

(** ** C42: every refusal has a reason, and legitimate requests succeed *)
Theorem C42_reasons :
  forall cf e cmd loc w er w',
    config_ok cf -> reachable cf (w_st w) -> keeps_size (e_cert e) ->
    exec_command cf (e_C e) (e_P e) (e_crypto e) (e_platform e) (e_cert e) cmd loc w = (Err er, w') ->
    refusal cf (e_crypto e) (e_platform e) (e_cert e) cmd loc (w_st w) (w_st w') (length (w_out w)) er.
Proof.
  intros cf e cmd loc w er w' Hcf R Hk H.
  exact (command_explained cf Hcf _ _ _ _ _ Hk _ _ _ _ _ (reachable_wf cf Hcf _ R) H).
Qed.
Print Assumptions C42_reasons.

Theorem C42_available :
  forall cf e need cmd loc w r w',
    config_ok cf -> reachable cf (w_st w) -> keeps_size (e_cert e) -> writer_returns e ->
    dependable cf (e_crypto e) (e_platform e) (e_cert e) need ->
    legitimate cf (e_platform e) cmd loc (w_st w) -> room_for cf need cmd <= length (w_out w) ->
    exec_command cf (e_C e) (e_P e) (e_crypto e) (e_platform e) (e_cert e) cmd loc w = (r, w') ->
    (exists n, r = Ok n) \/
    (needs_handle cmd loc (w_st w) /\ exists er, r = Err er /\ no_handle (e_crypto e) (w_st w') er).
Proof.
  intros cf e need cmd loc w r w' Hcf R Hk Hw D L Rm H.
  eapply (available cf Hcf (e_crypto e) (e_platform e) (e_cert e) Hk need); eauto. eapply reachable_wf; eauto.
Qed.
Print Assumptions C42_available.

(** Destroying, and asking for the profile, need nothing from the crypto back end. *)
Theorem C42_destroy :
  forall cf e h loc w r w',
    config_ok cf -> reachable cf (w_st w) -> (exists i, names (w_st w) h loc i) -> 12 <= length (w_out w) ->
    exec_command cf (e_C e) (e_P e) (e_crypto e) (e_platform e) (e_cert e) (CmdDestroyCtx h) loc w = (r, w') ->
    r = Ok 12%N.
Proof.
  intros cf e h loc w r w' Hcf R (i & Hi) L H.
  assert (W := reachable_wf cf Hcf _ R).
  pose proof H as H'. cbn [exec_command] in H'. apply (destroy_explained cf Hcf) with (co := e_crypto e) (cg := e_cert e) (po := e_platform e) in H'; [|exact W].
  destruct r as [n|er|k]; cbn [explained refusal aborts] in H'.
  - apply (command_reported cf Hcf) in H as [_ H]; [|exact W]. cbn [reported] in H. rewrite H. reflexivity.
  - destruct H' as [[_ X]|[X _]]; [cbn [fixed_size] in X; lia|]. destruct (X i Hi).
  - contradiction.
Qed.
Print Assumptions C42_destroy.

(** ** C06, C36: the first initialisation succeeds *)
Lemma default_init_succeeds cf e (w : world (e_C e) (e_P e)) loc r w' :
  config_ok cf -> wf cf (w_st w) -> st_init (w_st w) = false ->
  (exists i c, at_slot (w_st w) i c /\ c_state c = Inactive) -> 28 <= length (w_out w) ->
  exec_init cf (e_C e) (e_P e) (e_crypto e) (bit 30) loc w = (r, w') -> r = Ok 28%N /\ st_init (w_st w') = true.
Proof.
  intros Hcf W I F L H. pose proof H as H'.
  assert (K : keeps_size (fun (_ : cert_kind) (_ : cert_args) (_ : nat) (_ : state) (c : e_C e) (p : e_P e) (o : bytes) =>
                (@Err cert_result InvalidArgument, c, p, o))) by (intros ? ? ? ? ? ? ? ? ? ? ? X; congruence).
  pose proof (command_explained cf Hcf _ _ (e_crypto e) (e_platform e) _ K (CmdInitCtx (bit 30)) loc w _ _ W H) as X.
  assert (B30 : N.testbit (bit 30) 30 = true) by reflexivity. assert (B31 : N.testbit (bit 30) 31 = false) by reflexivity.
  apply exec_init_inv in H' as [[_ Q]|(s' & bs & D & Fi)].
  - destruct r as [n|er|k]; [destruct (Q n eq_refl)| |contradiction]. exfalso. unfold explained, refusal, fixed_size in X. rewrite B30, B31 in X.
    destruct X as [[_ X]|[[_ [[_ X]|[X _]]]|[[_ X]|[[_ X]|[X _]]]]]; try discriminate; try lia; [congruence|].
    destruct F as (i & c & F1 & F2). exact (X i c F1 F2).
  - destruct r as [n|er|k].
    + apply finish_ok in Fi as (-> & _ & -> & _). destruct D as (idx & h & _ & -> & [(_ & _ & _ & -> & ->)|(X1 & X2 & _)]).
      * split; [|reflexivity]. rewrite length_new; reflexivity.
      * exfalso. revert X1. unfold if_simulation. rewrite contains_bit. discriminate.
    + exfalso. destruct D as (idx & h & _ & -> & [(_ & _ & _ & -> & ->)|(X1 & X2 & _)]).
      * destruct Fi as [_ [(_ & Z & _)|(Z & _)]]; [discriminate|]. rewrite length_new in Z by reflexivity. lia.
      * revert X1. unfold if_simulation. rewrite contains_bit. discriminate.
    + contradiction.
Qed.

Theorem C06_first_succeeds :
  forall cf e s loc c p out r w',
    config_ok cf -> reachable cf s -> st_init s = false ->
    (exists i x, at_slot s i x /\ c_state x = Inactive) -> 28 <= length out ->
    exec_command cf (e_C e) (e_P e) (e_crypto e) (e_platform e) (e_cert e) (CmdInitCtx (2 ^ 30)) loc
      (mkWorld s c p out) = (r, w') ->
    r = Ok 28%N /\ st_init (w_st w') = true.
Proof.
  intros cf e s loc c p out r w' Hcf R I F L H.
  eapply (default_init_succeeds cf e (mkWorld s c p out)); eauto. cbn [w_st]. eapply reachable_wf; eauto.
Qed.
Print Assumptions C06_first_succeeds.

(** A new state is not initialised and has only free slots. *)
Theorem C06_new_state :
  forall cf sup fl, config_ok cf ->
    st_init (state_new cf sup fl) = false /\
    (exists i x, at_slot (state_new cf sup fl) i x) /\
    forall i x, at_slot (state_new cf sup fl) i x -> c_state x = Inactive.
Proof.
  intros cf sup fl Hcf. split; [reflexivity|]. split.
  - exists 0, (ctx_new cf). apply new_slot. split; [destruct Hcf; lia|reflexivity].
  - intros i x Hx. apply new_slot in Hx as [_ ->]. reflexivity.
Qed.
Print Assumptions C06_new_state.

(** Creating an instance over a new state fails only if the platform does not
    tell the locality. *)
Theorem C36_new_succeeds :
  forall cf e sup fl c p out r w', config_ok cf -> u32 sup ->
    dpe_new cf (e_C e) (e_P e) (e_crypto e) (e_platform e) (mkWorld (state_new cf sup fl) c p out) = (r, w') ->
    r = Ok tt \/
    exists pe p', N.testbit sup AUTO_INIT = true /\ po_auto_init_locality (e_platform e) p = (inr pe, p') /\
      r = Err (PlatformErr pe) /\ w' = mkWorld (state_new cf sup fl) c p' out.
Proof.
  intros cf e sup fl c p out r w' Hcf Hs H. unfold dpe_new in H. mstep H. cbn [w_st state_new st_support] in H.
  unfold preprocess_support, sup_auto_init in H. rewrite contains_bit in H.
  change 29%N with AUTO_INIT in H. destruct (N.testbit sup AUTO_INIT) eqn:B; [|apply ret_inv in H as [-> _]; auto].
  unfold bind in H at 1. unfold platform in H. cbn [w_p w_st w_c w_out] in H.
  destruct (po_auto_init_locality (e_platform e) p) as [[a|er] p'] eqn:PL.
  2:{ inversion H; subst. right. exists er, p'. auto. }
  left. unfold bind, with_out in H.
  match type of H with context [exec_init ?f ?g ?h ?i ?j ?k ?l] =>
    destruct (exec_init f g h i j k l) as [r1 wx] eqn:EX end.
  apply (default_init_succeeds cf e) in EX as [-> _].
  - inversion H; reflexivity.
  - exact Hcf.
  - cbn [w_st]. eapply reachable_wf; [exact Hcf|]. exists []. apply hi_new. exact Hs.
  - reflexivity.
  - cbn [w_st]. destruct (C06_new_state cf sup fl Hcf) as (_ & (i & x & X) & Y). eauto.
  - cbn [w_out]. rewrite repeat_length. lia.
Qed.
Print Assumptions C36_new_succeeds.

(** Non-vacuity: the toy environment is dependable (with a random source that
    never fails), and the requests of the examples are legitimate. *)

Lemma toy_dependable pk : (exists x y, pk = PkEcdsa256 x y) ->
  dependable toy_cf (toy_crypto counting) toy_platform (toy_cert pk) 4.
Proof.
  intros (x & y & ->). constructor.
  - intros er [(c & c' & X)|[(c & c' & X)|[(b & c & c' & X)|(c & c' & X)]]]; discriminate.
  - intros l d (c & c1 & c2 & c3 & c4 & dg & _ & _ & _ & X & ->).
    cbn [toy_crypto co_hash_finish] in X. assert (E : dg = DSha256 (toy_hash (tc_acc c3))) by congruence. rewrite E.
    cbn [digest_bytes]. rewrite length_to_buf. reflexivity.
  - intros er [(d & i & c & c' & X)|[(l & i & c & c' & X)|(d & c & c' & X)]]; discriminate.
  - intros er [(p & p' & X)|(p & p' & X)]; discriminate.
  - intros er [(p & p' & X)|(_ & u & p & p' & X & L)]; [discriminate|]. cbn in X. inversion X; subst. cbn in L. lia.
  - intros o b p n b' p' X. cbn [toy_platform po_certificate_chain] in X.
    destruct (N.of_nat (length toy_chain) <=? o)%N; [discriminate|].
    assert (E : n = N.of_nat (length (firstn (N.to_nat 2048) (skipn (N.to_nat o) toy_chain)))) by congruence.
    pose proof (firstn_le_length (N.to_nat 2048) (skipn (N.to_nat o) toy_chain)) as L.
    apply N.le_trans with n; [apply N.mod_le; discriminate|]. rewrite E. clear -L. unfold bytes in *.
    revert L. generalize (length (firstn (N.to_nat 2048) (skipn (N.to_nat o) toy_chain))). intros k L. lia.
  - exact (toy_chain_ends counting (PkEcdsa256 x y)).
  - intros d b sg b' X. cbn in X. inversion X; subst. reflexivity.
  - intros kd a o s b p out L. unfold toy_cert. apply Nat.leb_le in L. rewrite L. eauto 8.
  - intros kd a o s b p out cr c' p' out' X. unfold toy_cert in X.
    destruct (Nat.leb (o + 4) (length out)); inversion X; subst. exact Logic.I.
Qed.
Example C42_legitimate :
  let s := toy_state [(init_default, 5%N)] in
  legitimate toy_cf toy_platform (derive H0 (2 ^ 28) 7) 5 s /\ legitimate toy_cf toy_platform (sign H0) 5 s /\
  legitimate toy_cf toy_platform (certify H0 1) 5 s /\ legitimate toy_cf toy_platform init_simulation 5 s /\
  ~ legitimate toy_cf toy_platform init_default 5 s /\ ~ legitimate toy_cf toy_platform (sign H0) 6 s.
Proof.
  assert (M : forall loc, loc = 5%N -> mine (toy_state [(init_default, 5%N)]) H0 loc 0
                (nth 0 (st_contexts (toy_state [(init_default, 5%N)])) (ctx_new toy_cf))).
  { intros loc ->. split; [|reflexivity]. split; [|intros j X; lia]. eexists. split; [reflexivity|]. repeat split; reflexivity. }
  assert (Only : forall j c, at_slot (toy_state [(init_default, 5%N)]) j c -> c_state c = Active -> j = 0 /\ c_locality c = 5%N /\ c_handle c = H0).
  { intros j c Hc A. do 4 (destruct j as [|j]; [vm_compute in Hc; inversion Hc; subst; (discriminate || auto)|]).
    apply nth_error_lt in Hc. vm_compute in Hc. lia. }
  assert (Fr : exists i c, at_slot (toy_state [(init_default, 5%N)]) i c /\ c_state c = Inactive).
  { exists 1. eexists. split; reflexivity. }
  cbv zeta. repeat split.
  - intros X. vm_compute in X. intuition discriminate.
  - exists 0. eexists. split; [apply M; reflexivity|]. split.
    + intros X. vm_compute in X.
      destruct X as [X|[X|[X|(_ & i & c & X & Y & _)]]]; try (intuition discriminate).
      destruct Y as (c0 & Y1 & Y2 & Y3). do 4 (destruct i as [|i]; [vm_compute in Y1; inversion Y1; subst; vm_compute in Y3; discriminate|]).
      apply nth_error_lt in Y1. vm_compute in Y1. lia.
    + cbn [derive dc_flags]. vm_compute N.testbit. cbv iota. split; [exact Fr|].
      intros j c Hc A Lc. destruct (Only j c Hc A) as (-> & _ & Hh). auto.
  - intros r X; discriminate.
  - intros h ->. exists 0. eexists. split; [apply M; reflexivity|]. reflexivity.
  - exists H0, 0. eexists. split; [reflexivity|]. split; [apply M; reflexivity|]. right. split; reflexivity.
  - exact Fr.
  - right. repeat split; reflexivity.
  - intros [_ [(_ & _ & X)|(X & _)]]; vm_compute in X; discriminate.
  - intros [_ X]. destruct (X H0 eq_refl) as (i & x & [[(y & Y & A & Lc & _) _] _] & _).
    destruct (Only i y Y A) as (_ & Z & _). congruence.
Qed.
