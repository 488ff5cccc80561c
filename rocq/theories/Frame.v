(** Frame.v -- what a command may change about the contexts that stay in use. *)
From Verif Require Import Base Errors Types StateOps Env Wire Instance Commands Lib Spec Exec
  Effects Forest DestroyProofs History Steps Reach.
Local Open Scope nat_scope.

(** The measurements of slot [i] may be extended by [cmd] issued from [loc]. *)
Definition may_extend (s : state) (cmd : command) (loc : N) (i : nat) (m : bytes) : Prop :=
  match cmd with
  | CmdDeriveContext d =>
      N.testbit (dc_flags d) 24 = true /\ first_slot (names s (dc_handle d) loc) i /\ m = dc_data d
  | CmdUpdateContextMeasurement u =>
      (exists p, first_slot (names s (uc_parent_handle u) loc) p /\ child_of s p i) /\
      (exists c, at_slot s i c /\ c_state c = Active /\ tci_type (c_tci c) = uc_tci_type u) /\
      uc_parent_handle u <> repeat 0%N 16 /\ m = uc_data u
  | _ => False
  end.

Section Frame.
  Variable cf : config.
  Variable e : env.
  Hypothesis Hcf : config_ok cf.
  Notation HF := (hashed (e_C e) (e_P e) (e_crypto e)).

  (** [c] in slot [i] became [c'] by [cmd]. *)
  Definition kept (s : state) (cmd : command) (loc : N) (i : nat) (c c' : context) : Prop :=
    same_identity c c' /\
    (c_tci c' = c_tci c \/
     exists m d, may_extend s cmd loc i m /\ HF [tci_cumulative (c_tci c); m] d /\
                 length d = tci_size cf /\ c_state c = Active /\
                 tci_cumulative (c_tci c') = d /\ tci_current (c_tci c') = m).

  Definition framed (s : state) (cmd : command) (loc : N) (s' : state) : Prop :=
    forall i c c', at_slot s i c -> live c -> at_slot s' i c' -> live c' -> kept s cmd loc i c c'.

  Lemma same_identity_refl c : same_identity c c.
  Proof. unfold same_identity; auto 20. Qed.
  Lemma kept_refl s cmd loc i c : kept s cmd loc i c c.
  Proof. split; [apply same_identity_refl|left; reflexivity]. Qed.

  Lemma framed_refl s cmd loc s' : s' = s -> framed s cmd loc s'.
  Proof. intros -> i c c' Hc _ Hc' _. rewrite (at_det _ _ _ _ Hc' Hc). apply kept_refl. Qed.

  Lemma framed_put s cmd loc i c' :
    (forall c, at_slot s i c -> live c -> kept s cmd loc i c c') ->
    framed s cmd loc (put_ctx s i c').
  Proof.
    intros H j c d Hc Lc Hd Ld. apply at_put_iff in Hd as [(<- & _ & ->)|[_ Hd]]; [auto|].
    rewrite (at_det _ _ _ _ Hd Hc). apply kept_refl.
  Qed.

  Lemma kept_handle s cmd loc i c h : kept s cmd loc i c (set_handle h c).
  Proof. split; [unfold same_identity; cbn; auto 20|left; reflexivity]. Qed.

  Lemma kept_rolled s s0 cmd loc i c c1 c2 :
    kept s cmd loc i c c1 -> rolled s0 c1 c2 -> kept s cmd loc i c c2.
  Proof.
    intros K [[_ ->]|(_ & h & _ & ->)]; [exact K|]. exact K.
  Qed.

  Lemma handle_rolled_framed h loc cmd s s' nh :
    handle_rolled h loc s s' nh -> framed s cmd loc s'.
  Proof.
    intros (i & c & c' & _ & Hc & Hr & -> & _). apply framed_put. intros c0 Hc0 _.
    rewrite (at_det _ _ _ _ Hc0 Hc). eapply kept_rolled; [apply kept_refl|exact Hr].
  Qed.

  Lemma pruned_framed s D cmd loc s' : (forall i, D i \/ ~ D i) -> pruned cf s D s' -> framed s cmd loc s'.
  Proof.
    intros Dd (_ & _ & H) i c c' Hc Lc Hc' Lc'. destruct (H i c Hc) as (c2 & Hc2 & K1 & K2).
    rewrite (at_det _ _ _ _ Hc' Hc2) in *. destruct (Dd i) as [Di|Di].
    - exfalso. apply Lc'. apply K1; exact Di.
    - destruct (K2 Di) as [(S1 & S2 & S3 & S4 & S5 & S6 & S7 & S8 & S9 & S10 & S11) _].
      split; [unfold same_identity; rewrite S2; auto 20|left; exact S2].
  Qed.

  Lemma destroy_framed h s cmd loc s' :
    wf cf s -> destroy_context cf h s loc = Ok s' -> framed s cmd loc s'.
  Proof.
    intros W H. destruct (destroy_spec cf Hcf h s loc s' (wf_forest _ _ W) H) as (t & [(c & Hc & Ha & _) _] & Hp).
    eapply pruned_framed; [|exact Hp]. intros i. apply (doomed_dec cf Hcf); [apply W|].
    exists c; split; [exact Hc|unfold live; congruence].
  Qed.

  Lemma at_first s h loc i c : first_slot (names s h loc) i -> at_slot s i c ->
    c_state c = Active /\ c_locality c = loc /\ c_handle c = h.
  Proof. intros [(c0 & H0 & H) _] Hc. rewrite (at_det _ _ _ _ Hc H0). exact H. Qed.

  Lemma cumulative_length s i c : wf cf s -> at_slot s i c -> length (tci_cumulative (c_tci c)) = tci_size cf.
  Proof. intros W Hc. apply (wf_slot _ _ W i c Hc). Qed.

  Lemma derive_framed c loc w r w' :
    wf cf (w_st w) ->
    exec_derive cf (e_C e) (e_P e) (e_crypto e) (e_platform e) (e_cert e) c loc w = (r, w') ->
    framed (w_st w) (CmdDeriveContext c) loc (w_st w').
  Proof.
    intros W H.
    apply exec_derive_inv in H as [(H & _)|[(s' & bs & H & -> & _)|[(s' & bs & H & -> & _)|(s' & w2 & cr & ph & H & -> & _)]]].
    - apply framed_refl; exact H.
    - destruct H as (p & pc & pc' & d & (_ & Hf & Hpc & _) & Hrec & _ & _ & Hd & Hdl & Hr & -> & _).
      apply framed_put. intros c0 Hc0 _. rewrite (at_det _ _ _ _ Hc0 Hpc).
      destruct (at_first _ _ _ _ _ Hf Hpc) as (Ha & _).
      eapply kept_rolled; [|exact Hr]. split; [unfold same_identity; cbn; auto 20|].
      right. exists (dc_data c), d. split.
      + cbn. unfold df_recursive in Hrec. rewrite contains_bit in Hrec. auto.
      + split; [exact Hd|]. rewrite Hdl. split; [eapply cumulative_length; eauto|]. cbn. auto.
    - destruct H as (p & pc & pc' & ch & h & d & (_ & Hf & Hpc & _) & _ & _ & _ & Htp & Hch & _ & _ & _ & _ & _ & _ & -> & _).
      intros i x x' Hx Lx Hx' Lx'.
      apply at_put_iff in Hx' as [(<- & _ & ->)|[_ Hx']].
      + rewrite (at_det _ _ _ _ Hx Hpc). destruct Htp as [[_ [[_ ->]|(_ & h' & _ & ->)]]|[_ ->]];
          (split; [unfold same_identity; cbn; auto 20|left; reflexivity]).
      + apply at_put_iff in Hx' as [(<- & _ & ->)|[_ Hx']].
        * exfalso. destruct Hch as [(y & Hy & Iy) _]. rewrite (at_det _ _ _ _ Hx Hy) in Lx. contradiction.
        * rewrite (at_det _ _ _ _ Hx' Hx). apply kept_refl.
    - destruct H as (p & pc & pc' & u & ue & w1 & (_ & Hf & Hpc & _) & _ & _ & _ & _ & Htp & _ & _ & _ & _ & H).
      destruct H as [(_ & -> & _)|(_ & _ & Hds & _)]; [|eapply destroy_framed; eauto].
      apply framed_put. intros c0 Hc0 _. rewrite (at_det _ _ _ _ Hc0 Hpc).
      destruct Htp as [[_ Hr]|[_ ->]].
      + eapply kept_rolled; [apply kept_refl|exact Hr].
      + split; [unfold same_identity; cbn; auto 20|left; reflexivity].
  Qed.

  Lemma update_framed u loc w r w' :
    wf cf (w_st w) ->
    exec_update cf (e_C e) (e_P e) (e_crypto e) u loc w = (r, w') ->
    framed (w_st w) (CmdUpdateContextMeasurement u) loc (w_st w').
  Proof.
    intros W H. apply exec_update_inv in H as [[[H _] _]|H]; [apply framed_refl; exact H|].
    destruct H as (s1 & p & ch & pc & pc' & cc & cc' & (Hnd & Hf & Hpc & Hfind & Hcc & (d & Hd & Hdl & ->) & Hr & ->) & H).
    destruct (at_first _ _ _ _ _ Hf Hpc) as (Ha & _).
    unfold update_child_pos in Hfind. apply find_some in Hfind as [Hin Hcond].
    apply (in_children cf Hcf (w_st w) p pc ch (wf_forest _ _ W) Hpc) in Hin.
    rewrite (Hcc : get_ctx (w_st w) ch = Some cc) in Hcond. apply andb_true_iff in Hcond as [Hact Hty].
    apply ctx_state_eqb_eq in Hact. apply N.eqb_eq in Hty.
    assert (S1 : framed (w_st w) (CmdUpdateContextMeasurement u) loc (put_ctx (w_st w) p pc')).
    { apply framed_put. intros c0 Hc0 _. rewrite (at_det _ _ _ _ Hc0 Hpc).
      eapply kept_rolled; [apply kept_refl|exact Hr]. }
    destruct H as [(-> & _)|(cc'' & Hr2 & -> & _)]; [exact S1|].
    intros i x x' Hx Lx Hx' Lx'. apply at_put_iff in Hx' as [(<- & _ & ->)|[_ Hx']]; [|eapply S1; eauto].
    rewrite (at_det _ _ _ _ Hx Hcc).
    eapply kept_rolled; [|exact Hr2]. split; [unfold same_identity; cbn; auto 20|].
    right. exists (uc_data u), d. split.
    - cbn. split; [exists p; auto|]. split; [exists cc; auto|]. auto.
    - split; [exact Hd|]. rewrite Hdl. split; [eapply cumulative_length; eauto|]. cbn. auto.
  Qed.

  Theorem command_framed cmd loc w r w' :
    wf cf (w_st w) ->
    exec_command cf (e_C e) (e_P e) (e_crypto e) (e_platform e) (e_cert e) cmd loc w = (r, w') ->
    framed (w_st w) cmd loc (w_st w').
  Proof.
    intros W H. destruct cmd; cbn [exec_command] in H.
    - apply exec_get_profile_inv in H as [[[H _] _]|(bs & H & _)]; apply framed_refl; exact H.
    - apply exec_init_inv in H as [[[H _] _]|(s' & bs & (idx & h & Hi & _ & H) & -> & _)]; [apply framed_refl; exact H|].
      destruct Hi as [(y & Hy & Iy) _].
      destruct H as [(_ & _ & _ & _ & ->)|(_ & _ & _ & _ & ->)].
      all: intros i x x' Hx Lx Hx' Lx'; apply at_put_iff in Hx' as [(<- & _ & ->)|[_ Hx']];
        [exfalso; rewrite (at_det _ _ _ _ Hx Hy) in Lx; contradiction
        |rewrite (at_det _ _ _ _ (Hx' : at_slot (w_st w) i x') Hx); apply kept_refl].
    - eapply derive_framed; eauto.
    - apply exec_certify_inv in H as [[H _]|(s' & w1 & cr & nh & (i & ctx & _ & _ & H) & [-> _])]; [apply framed_refl; exact H|].
      eapply handle_rolled_framed; eauto.
    - apply exec_sign_inv in H as [[[H _] _]|(s' & bs & H & [-> _])]; [apply framed_refl; exact H|].
      destruct H as (h & lb & da & i & ctx & sg & sb & nh & w1 & _ & _ & _ & _ & _ & _ & H & _).
      eapply handle_rolled_framed; eauto.
    - apply exec_rotate_inv in H as [[[H _] _]|(s' & bs & H & [-> _])]; [apply framed_refl; exact H|].
      destruct H as (i & ctx & nh & _ & _ & Hc & -> & _).
      apply framed_put. intros c0 Hc0 _. rewrite (at_det _ _ _ _ Hc0 Hc). apply kept_handle.
    - apply exec_destroy_inv in H as [[[H _] _]|(s' & H & [-> _])]; [apply framed_refl; exact H|].
      eapply destroy_framed; eauto.
    - apply exec_get_chain_inv in H as [[[H _] _]|(bs & H & _)]; apply framed_refl; exact H.
    - eapply update_framed; eauto.
  Qed.
End Frame.
