(** Fits.v -- every command that succeeds with some response buffer succeeds in the same
    way inside [execute], whose buffer is the response structure of the command. *)
From Verif Require Import Base Errors Types StateOps Env Wire Instance Commands Response Lib Spec Exec Effects Forest History WireSpec Contract Codec Steps Reach CommandSpecs
  Responses Execute Walk Measure Der DerProofs X509 X509Cert X509Run X509Spec X509Enc X509Gen X509Sane X509Cmd X509Facts X509Size X509Fit Buffers.
Open Scope N_scope.
Open Scope dpe_scope.

(** Sign commands are those of the instance's profile; deserialisation makes no other. *)
Definition for_profile (cf : config) (cmd : command) : Prop :=
  match cmd with CmdSign c => sign_profile c = prof cf | _ => True end.

Lemma wf_handles16 cf s : wf cf s -> handles16 s.
Proof.
  intros W. unfold handles16. rewrite Forall_forall. intros c Hc. apply In_nth_error in Hc as [i Hi].
  exact (proj1 (so_handle _ _ _ (wf_slot _ _ W i c Hi))).
Qed.

Section Fits.
  Variable cf : config.
  Hypothesis Hcf : config_ok cf.
  Context {C P : Type}.
  Variable co : crypto_ops C.
  Variable po : platform_ops P.
  Notation gen := (x509_gen cf C P co po).
  Notation exec := (exec_command cf C P co po gen).

  Lemma command_keeps_wf cmd loc w r w' : wf cf (w_st w) -> command_wf cf cmd -> u32 loc -> exec cmd loc w = (r, w') -> wf cf (w_st w').
  Proof.
    intros W Wc Wl H. pose (e := {| e_C := C; e_P := P; e_crypto := co; e_platform := po; e_cert := gen |}).
    apply (executes_wf cf Hcf e cmd loc (w_st w) r (w_st w') W Wc Wl).
    exists (w_c w), (w_p w), (w_out w), (w_c w'), (w_p w'), (w_out w'). destruct w as [s c p o], w' as [s' c' p' o']. exact H.
  Qed.

  Hypothesis Hsigs : signatures_fit cf co.

  Lemma sign_fits c loc w n w' : wf cf (w_st w) -> sign_profile c = prof cf ->
    exec (CmdSign c) loc w = (Ok n, w') -> n = N.of_nat (response_size cf (CmdSign c)).
  Proof.
    intros W HP H. cbn [exec_command] in H.
    apply exec_sign_inv in H as [[_ N]|(s' & bs & (h & lb & da & i & ctx & g & sb & nh & w1 & _ & _ & _ & _ & Hs & Hb & Hr & ->) & Hfin)];
      [exfalso; eapply N; reflexivity|].
    assert (Lh : length nh = 16%nat).
    { destruct Hr as (i' & c0 & c' & _ & Hc & R & _ & ->).
      pose proof (so_handle _ _ _ (wf_slot _ _ W i' c0 Hc)) as [B _].
      destruct R as [[_ ->]|(_ & x & (_ & L & _) & ->)]; [exact B|exact L]. }
    assert (Hg : sig_of (prof cf) g).
    { unfold do_sign in Hs. apply bind_inv in Hs as [(d & w2 & _ & Hs)|[(x & _ & X)|(k & _ & X)]]; try discriminate.
      apply bind_inv in Hs as [(u & w3 & _ & Hs)|[(x & _ & X)|(k & _ & X)]]; try discriminate.
      apply bind_inv in Hs as [(u2 & w4 & _ & Hs)|[(x & _ & X)|(k & _ & X)]]; try discriminate.
      unfold crypto in Hs. destruct (co_signer_sign co da (w_c w4)) as [[g0|e0] c0] eqn:E0; [|discriminate].
      apply (f_equal fst) in Hs. cbn [fst] in Hs. apply ok_inj in Hs. subst g0. exact (proj2 Hsigs _ _ _ _ E0). }
    destruct Hfin as [_ [(_ & Hn & _)|(_ & X & _)]]; [|discriminate]. apply ok_inj in Hn. rewrite Hn, size_wire. clear - HP Hb Lh Hg.
    unfold wire_size, sign_resp_bytes. rewrite !app_length, length_ok_hdr, Lh, HP, N2Nat.id.
    destruct (prof cf), g; try destruct Hg; cbn [signature_bytes] in Hb; [destruct (feat_p256 cf)|destruct (feat_p384 cf)|destruct (feat_mldsa cf)];
      try discriminate; injection Hb as <-; rewrite app_length, !length_to_buf; cbn [length]; unfold mldsa87_sig_size; lia.
  Qed.

  Hypothesis Hkeys : keys_fit cf co.
  Hypothesis Hsizes : sizes_chosen cf.
  Variables A B : N.
  Hypothesis Hnames : names_room po A B.
  Hypothesis HAB : A + B <= 97.

  (** Commands for a signed request address a context that is not at the end of a chain
      of all the contexts there can be. *)
  Definition not_full (s : state) (cmd : command) (loc : N) : Prop :=
    asks_request cmd -> forall h i cts, presents cmd h -> first_slot (names s h loc) i -> lineage s i cts -> (length cts < max_handles cf)%nat.

  Theorem command_fits cmd loc w n w' : wf cf (w_st w) -> command_wf cf cmd -> for_profile cf cmd -> not_full (w_st w) cmd loc ->
    exec cmd loc w = (Ok n, w') -> n <= N.of_nat (response_size cf cmd).
  Proof.
    intros W HC HP HN H. pose proof (proj2 (command_reported cf Hcf C P co po gen _ _ _ _ _ W H)) as R.
    destruct cmd as [|f|d|c|c|h f|h|o z|u]; cbn [Contract.reported] in R.
    - rewrite R, size_wire. cbn [wire_size]. lia.
    - destruct R as [-> _]. rewrite size_wire. cbn [wire_size]. lia.
    - destruct (N.testbit (dc_flags d) 23) eqn:B23; [destruct (N.testbit (dc_flags d) 24) eqn:B24|].
      + destruct R as (p & pc & _ & _ & -> & _). rewrite size_wire. cbn [wire_size]. rewrite B23. lia.
      + apply (certificate_fits cf Hcf co po Hkeys Hsigs Hsizes A B Hnames HAB _ loc w _ w' W HC); [split; assumption|exact H].
      + assert (n = 44). { destruct R as (p & pc & _ & _ & R). destruct (N.testbit (dc_flags d) 24); apply R. }
        subst n. rewrite size_wire. cbn [wire_size]. rewrite B23. lia.
    - assert (D : asks_certificate (CmdCertifyKey c) \/ asks_request (CmdCertifyKey c)).
      { destruct c as [c|c|c]; cbn [asks_certificate asks_request]; destruct (N.eq_dec (ck_format c) 0); auto. }
      destruct D as [D|D]; [exact (certificate_fits cf Hcf co po Hkeys Hsigs Hsizes A B Hnames HAB _ loc w _ w' W HC D H)|].
      destruct R as (_ & h & i & ct & R1 & R2 & _). destruct (lookup_lineage cf _ _ _ _ W R2) as (cts & HL).
      exact (request_fits cf Hcf co po Hkeys Hsigs Hsizes A B Hnames HAB _ loc w _ w' h i cts W HC D R1 R2 HL (HN D _ _ _ R1 R2 HL) H).
    - rewrite (sign_fits _ _ _ _ _ W HP H). lia.
    - destruct R as [-> _]. rewrite size_wire. cbn [wire_size]. lia.
    - rewrite R, size_wire. cbn [wire_size]. lia.
    - rewrite R, size_wire. cbn [wire_size]. lia.
    - destruct R as [-> _]. rewrite size_wire. cbn [wire_size]. lia.
  Qed.
End Fits.

(** What [execute] returns for a command that succeeds with some buffer. *)
Lemma execute_measured cf (Hcf : config_ok cf) {C P} (co : crypto_ops C) (po : platform_ops P) cmd loc w n w' :
  wf cf (w_st w) -> command_wf cf cmd -> u32 loc ->
  exec_command cf C P co po (x509_gen cf C P co po) cmd loc w = (Ok n, w') ->
  (n <= N.of_nat (response_size cf cmd) ->
     exists resp, execute cf C P co po (x509_gen cf C P co po) cmd loc w = (Ok resp, set_out w' (w_out w)) /\
       firstn (N.to_nat n) (response_bytes resp) = firstn (N.to_nat n) (w_out w') /\ answers cf cmd resp) /\
  (N.of_nat (response_size cf cmd) < n ->
     exists e w2, execute cf C P co po (x509_gen cf C P co po) cmd loc w = (Err e, w2) /\ too_short e).
Proof.
  intros W HC HL H.
  assert (W' : handles16 (w_st w')) by (eapply wf_handles16, (command_keeps_wf cf Hcf co po); eassumption).
  destruct (command_measured cf co po cmd loc w n w' H W') as [_ M].
  specialize (M (repeat 0 (N.to_nat (wire_size cf cmd)))) as [M1 M2]. rewrite repeat_length in M1, M2. rewrite size_wire.
  destruct (execute cf C P co po (x509_gen cf C P co po) cmd loc w) as [r w2] eqn:E.
  destruct (execute_spec cf Hcf C P co po _ (x509_sane cf co po) _ _ _ _ _ W HC E) as (r0 & w1 & X1 & -> & X3).
  split; intros L.
  - destruct M1 as (o2 & E2 & Lo & F); [lia|]. unfold set_out in E2 at 1. rewrite E2 in X1. apply pair_equal_spec in X1 as [<- <-].
    destruct X3 as (resp & -> & An & Eb & _). exists resp. split; [reflexivity|]. rewrite Eb. split; [exact F|exact An].
  - destruct M2 as (e & w3 & E2 & Q); [lia|]. unfold set_out in E2 at 1. rewrite E2 in X1. apply pair_equal_spec in X1 as [<- <-].
    exists e. eexists. split; [rewrite X3; reflexivity|exact Q].
Qed.
