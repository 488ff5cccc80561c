(** CommandSpecs.v -- the effect of every successful command in the vocabulary
    of Spec.v. *)
From Verif Require Import Base Errors Types StateOps Env Wire Instance Commands Lib Spec Exec
  Effects Forest DestroyProofs History Contract Steps Reach Denials.
Local Open Scope nat_scope.
Open Scope dpe_scope.

Lemma gen_fresh s h : gen_ok s h -> fresh_handle s h.
Proof.
  intros (H1 & H2 & H3 & H4). split; [exact H1|]. split; [exact H2|].
  intros i c Hc. apply H4. eapply nth_error_In; eauto.
Qed.

Lemma only_put s i c' : only_slots (eq i) s (put_ctx s i c').
Proof.
  split; [unfold same_globals; cbn; auto 10|]. split; [apply length_upd|].
  intros j Hj. cbn. apply nth_error_upd_ne. auto.
Qed.
Lemma only_put2 s i j ci cj : only_slots (fun k => k = i \/ k = j) s (put_ctx (put_ctx s j cj) i ci).
Proof.
  split; [unfold same_globals; cbn; auto 10|]. split; [cbn; rewrite !length_upd; reflexivity|].
  intros k Hk. cbn. rewrite !nth_error_upd_ne; auto.
Qed.
Lemma at_put_same s i c c' : at_slot s i c -> at_slot (put_ctx s i c') i c'.
Proof. intros H. apply at_put_iff. left. repeat split; auto. eapply at_lt; eauto. Qed.
Lemma at_put_other s i j c c' : i <> j -> at_slot s j c -> at_slot (put_ctx s i c') j c.
Proof. intros H1 H2. apply at_put_iff. right. auto. Qed.

Lemma rolled_spec s c c' : rolled s c c' -> same_but_handle c c' /\ refreshed s c (c_handle c').
Proof.
  unfold same_but_handle, refreshed. intros [[E ->]|(E & h & Hg & ->)]; cbn; split; auto 20 using gen_fresh.
Qed.

Section Specs.
  Variable cf : config.
  Variables C P : Type.
  Variable co : crypto_ops C.
  Variable po : platform_ops P.
  Variable cg : cert_kind -> cert_args -> nat -> state -> C -> P -> bytes ->
                result cert_result * C * P * bytes.

  Lemma hash_updates_absorbs l : forall w w',
    hash_updates C P co l w = (Ok tt, w') -> absorbs co (w_c w) l (w_c w').
  Proof.
    induction l as [|b l IH]; cbn [hash_updates]; intros w w' H.
    - apply ret_inv in H as [_ ->]. constructor.
    - mstep H; try discriminate. unfold crypto in E.
      destruct (co_hash_update co b (w_c w)) as [[[]|e] c1] eqn:U; [|discriminate].
      inversion E; subst w1. apply IH in H. cbn [w_c] in H. econstructor; eauto.
  Qed.

  Lemma hashed_hash_of l d : hashed C P co l d -> hash_of co l d.
  Proof.
    intros (w & dg & w' & H & ->). unfold hash_all in H.
    apply bind_inv in H as [(a1 & w1 & E1 & H)|[(e & _ & X)|(k & _ & X)]]; try discriminate.
    apply bind_inv in H as [(a2 & w2 & E2 & H)|[(e & _ & X)|(k & _ & X)]]; try discriminate.
    apply bind_inv in H as [(a3 & w3 & E3 & H)|[(e & _ & X)|(k & _ & X)]]; try discriminate.
    destruct a1, a2, a3. apply hash_updates_absorbs in E3. unfold crypto in *.
    destruct (co_hasher co (w_c w)) as [[[]|] c0] eqn:F1; [|discriminate]. inversion E1; subst w1; clear E1.
    cbn [w_c] in E2. destruct (co_hash_initialize co c0) as [[[]|] c1] eqn:F2; [|discriminate].
    inversion E2; subst w2; clear E2. cbn [w_c] in E3.
    destruct (co_hash_finish co (w_c w3)) as [[dg'|] c3] eqn:F4; [|discriminate]. inversion H; subst dg'.
    unfold hash_of. exists (w_c w), c0, c1, (w_c w3), c3, dg. auto.
  Qed.

  (** *** Rotate *)

  Lemma rotate_done_spec h f loc s s' bs : rotate_done cf h f loc s s' bs -> rotate_spec h f loc s s'.
  Proof.
    intros (i & c & nh & Hs & Hf & Hc & -> & _ & H).
    exists i, c, (set_handle nh c). unfold sup_rotate in Hs. rewrite contains_bit in Hs.
    unfold rf_target_default in H. rewrite contains_bit in H.
    split; [exact Hf|]. split; [exact Hc|]. split; [exact Hs|]. split; [apply only_put|].
    split; [eapply at_put_same; eauto|]. split; [unfold same_but_handle; cbn; auto 20|].
    cbn [c_handle set_handle]. split; intros T; rewrite T in H; destruct H as [(B & -> & N1 & N2)|(B & Hg)]; try discriminate.
    - split; [reflexivity|]. split.
      + intros ->. apply (N1 i). apply Hf.
      + intros j d Hd Ad Ld. apply (N2 j d); auto. intros X. apply (N1 j). exists d; auto.
    - apply gen_fresh; exact Hg.
  Qed.

  (** *** Sign, CertifyKey *)

  Lemma handle_rolled_spec h loc s s' nh : handle_rolled h loc s s' nh -> rolled_only h loc s s'.
  Proof.
    intros (i & c & c' & Hf & Hc & Hr & -> & ->). exists i, c, c'. apply rolled_spec in Hr as [S R].
    split; [exact Hf|]. split; [exact Hc|]. split; [apply only_put|]. split; [eapply at_put_same; eassumption|].
    auto.
  Qed.

  (** *** InitializeContext *)

  Lemma init_done_spec f loc s s' bs : init_done cf f loc s s' bs -> init_spec cf f loc s s'.
  Proof.
    intros (k & h & Hf & _ & H). exists k, h. unfold if_default, if_simulation, sup_simulation in H.
    rewrite !contains_bit in H. split; [exact Hf|]. pose proof Hf as [(old & Hold & _) _].
    destruct H as [(D & S & I & -> & ->)|(S & D & Su & Hg & ->)]; rewrite D, S.
    - split; [reflexivity|]. split; [auto|]. split; [discriminate|].
      split; [cbn; rewrite orb_true_r; auto 10|]. split; [apply length_upd|].
      split; [intros j Hj; cbn; apply nth_error_upd_ne; auto|].
      eapply at_put_same with (c := old). exact Hold.
    - split; [reflexivity|]. split; [discriminate|]. split; [intros _; split; [exact Su|apply gen_fresh; exact Hg]|].
      split; [cbn; rewrite orb_false_r; auto 10|]. split; [apply length_upd|].
      split; [intros j Hj; cbn; apply nth_error_upd_ne; auto|].
      eapply at_put_same with (c := old). exact Hold.
  Qed.

  (** *** DeriveContext *)

  Lemma derive_ok_guard d loc s p pc : derive_ok d loc s p pc -> derive_guard d loc s p pc.
  Proof.
    intros (H1 & H2 & H3 & H4). unfold derive_guard.
    split; [exact H2|]. split; [exact H3|].
    split. { intros U. apply unsupported_iff in U. congruence. }
    unfold derive_bad_args, df_allow_x509, df_export_cdi, df_create_cert, df_recursive, df_change_locality,
      df_retain_parent, df_allow_recursive in H4. rewrite !contains_bit in H4.
    apply orb_false in H4 as [H4 B9]. apply orb_false in H4 as [H4 B8]. apply orb_false in H4 as [H4 B7].
    apply orb_false in H4 as [H4 B6]. apply orb_false in H4 as [H4 B5]. apply orb_false in H4 as [H4 B4].
    apply orb_false in H4 as [H4 B3]. apply orb_false in H4 as [B1 B2].
    split; [|split]; intros T; rewrite T in *; cbn [andb negb] in *.
    - rewrite andb_true_r in B1. apply negb_false_iff in B1. exact B1.
    - rewrite andb_true_r in *. apply negb_false_iff in B9. auto.
    - apply negb_false_iff in B2, B6. apply ctx_type_eqb_neq in B5. repeat split; auto.
      destruct (c_type pc); [reflexivity|congruence].
  Qed.

  Lemma recursive_done_spec d loc s s' bs :
    wf cf s -> derive_recursive_done cf C P co d loc s s' bs ->
    N.testbit (dc_flags d) 24 = true /\ recursive_spec cf co d loc s s'.
  Proof.
    intros W (i & c & c' & dg & Hok & Hrec & Hty & Htgt & Hh & Hl & Hr & -> & _).
    unfold df_recursive in Hrec. rewrite contains_bit in Hrec. split; [exact Hrec|].
    pose proof (derive_ok_guard _ _ _ _ _ Hok) as G. pose proof G as (_ & Hc & U & _).
    exists i, c, c'. split; [exact G|]. split.
    { destruct (N.testbit (st_support s) RECURSIVE) eqn:T; [exact T|]. exfalso. apply U.
      unfold unsupported_option, supports. rewrite T. intuition. }
    split. { intros T. unfold derive_target, df_change_locality in Htgt. rewrite contains_bit, T in Htgt. exact Htgt. }
    split; [exact Hty|]. split; [apply only_put|]. split; [eapply at_put_same; eauto|].
    apply rolled_spec in Hr as [S R]. split.
    - destruct S as (S1 & S2 & S3 & S4 & S5 & S6 & S7 & S8 & S9 & S10 & S11). cbn in *.
      unfold extended, same_identity. rewrite S1. cbn. destruct (so_cumulative _ _ _ (wf_slot _ _ W _ _ Hc)) as [Hlc _]. rewrite Hlc in Hl.
      repeat split; try assumption; try tauto. apply hashed_hash_of; exact Hh.
    - exact R.
  Qed.

  Lemma child_done_spec (Hcf : config_ok cf) d loc s s' bs :
    wf cf s -> derive_child_done cf C P co d loc s s' bs ->
    N.testbit (dc_flags d) 24 = false /\ N.testbit (dc_flags d) 23 = false /\ child_spec cf co d loc s s'.
  Proof.
    intros W (p & pc & pc' & k & h & dg & Hok & Hrec & Hex & Hsib & Htmp & Hk & Hkm & Hsafe & Hh & Hd & Hdl & _ & -> & _).
    unfold df_recursive in Hrec. rewrite contains_bit in Hrec. split; [exact Hrec|].
    pose proof (derive_ok_guard _ _ _ _ _ Hok) as G. pose proof G as (Hf & Hc & U & _ & _ & Hg).
    split. { destruct (N.testbit (dc_flags d) 23) eqn:T; [|reflexivity]. destruct (Hg eq_refl) as (T2 & _).
             unfold df_create_cert, df_export_cdi in Hex. rewrite !contains_bit, T, T2 in Hex. discriminate. }
    pose proof Hf as [(c0 & Hc0 & Ha & _) _]. rewrite (at_det _ _ _ _ Hc0 Hc) in *. clear Hc0 c0.
    assert (Hne : p <> k).
    { intros <-. destruct Hk as [(x & Hx & Hi) _]. rewrite (at_det _ _ _ _ Hx Hc) in Hi. congruence. }
    set (npc := set_children (N.lor (c_children pc) (N.shiftl 1 (N.of_nat k))) pc').
    exists p, pc, npc, k, h, dg. split; [exact G|]. split; [exact Hk|]. split.
    { intros i c Hi Hch. destruct Hch as (c2 & Hc2 & L2 & P2). rewrite (at_det _ _ _ _ Hc2 Hi) in *.
      eapply (sibling_free_spec cf Hcf s p pc); eauto using wf_forest. }
    split; [apply only_put2|]. split; [apply hashed_hash_of; exact Hd|]. split; [exact Hdl|].
    split. { unfold df_make_default in Hh. rewrite contains_bit in Hh.
             destruct Hh as [[-> ->]|[-> Hg2]]; [reflexivity|apply gen_fresh; exact Hg2]. }
    split.
    { apply at_put_other; [exact Hne|]. destruct Hk as [(old & Hold & _) _].
      unfold child_context, derive_target, df_change_locality, df_internal_info, df_internal_dice, df_allow_x509,
        df_allow_export, df_allow_recursive. rewrite !contains_bit. eapply at_put_same; eauto. }
    split. { eapply at_put_same with (c := pc). apply at_put_other; auto. }
    unfold tmp_parent, df_retain_parent in Htmp. rewrite contains_bit in Htmp.
    assert (KB : forall j, has_bit (c_children npc) j <-> has_bit (c_children pc) j \/ j = k).
    { intros j. unfold has_bit, npc. cbn [set_children c_children].
      rewrite N.lor_spec, testbit_shl1, orb_true_iff, Nat.eqb_eq. intuition. }
    destruct Htmp as [[T Hr]|[T ->]]; rewrite T.
    - apply rolled_spec in Hr as [(S1 & S2 & S3 & S4 & S5 & S6 & S7 & S8 & S9 & S10 & S11) R].
      split; [unfold npc, same_identity; cbn; rewrite S1; auto 20|]. split; [exact S1|].
      split; [exact KB|]. cbn. rewrite S6. auto.
    - split; [unfold npc, same_identity; cbn; auto 20|]. split; [reflexivity|].
      split; [exact KB|]. split; reflexivity.
  Qed.

  Lemma export_done_spec (Hcf : config_ok cf) d loc w s' w2 cr ph :
    wf cf (w_st w) -> derive_export_done cf C P po cg d loc w s' w2 cr ph ->
    N.testbit (dc_flags d) 24 = false /\ N.testbit (dc_flags d) 23 = true /\ export_spec cf d loc (w_st w) s'.
  Proof.
    intros W (p & pc & pc' & u & ueid & w1 & Hok & Hrec & Hcc & Hex & Hsib & Htmp & _ & _ & _ & _ & H).
    unfold df_recursive, df_export_cdi in *. rewrite contains_bit in *. split; [exact Hrec|]. split; [exact Hex|].
    pose proof (derive_ok_guard _ _ _ _ _ Hok) as G. pose proof G as (Hf & Hc & U & _ & _ & Hg).
    exists p, pc. split; [exact G|]. split.
    { intros i c Hi Hch. destruct Hch as (c2 & Hc2 & L2 & P2). rewrite (at_det _ _ _ _ Hc2 Hi) in *.
      eapply (sibling_free_spec cf Hcf (w_st w) p pc); eauto using wf_forest. }
    unfold tmp_parent, df_retain_parent in *. rewrite contains_bit in *.
    destruct (N.testbit (dc_flags d) 29) eqn:T.
    - destruct H as [(_ & -> & _)|(X & _)]; [|discriminate].
      destruct Htmp as [[_ Hr]|[X _]]; [|discriminate]. apply rolled_spec in Hr as [S R].
      exists pc'. split; [apply only_put|]. split; [eapply at_put_same; eauto|]. auto.
    - destruct Htmp as [[X _]|[_ ->]]; [discriminate|]. unfold has_children, children_empty in H. cbn [orb] in H.
      destruct H as [(B & -> & _)|(_ & B & Hd & _)].
      + apply negb_true_iff in B. rewrite B. eexists. split; [apply only_put|].
        split; [eapply at_put_same; eauto|]. unfold same_identity; cbn. auto 20.
      + apply negb_false_iff in B. rewrite B.
        destruct (destroy_spec cf Hcf _ _ _ _ (wf_forest _ _ W) Hd) as (t & Ht & Hp).
        assert (t = p); [|subst; exact Hp].
        destruct Hf as [F1 F2], Ht as [T1 T2].
        destruct (Nat.lt_trichotomy t p) as [L|[L|L]]; [exfalso; eapply F2; eauto|exact L|exfalso; eapply T2; eauto].
  Qed.

  (** *** UpdateContextMeasurement *)
  Lemma update_half_spec (Hcf : config_ok cf) u loc s s1 p i pc pc' c c1 :
    wf cf s -> update_half cf C P co u loc s s1 p i pc pc' c c1 ->
    update_parent u loc s s1 /\
    forall c', rolled s1 c1 c' -> update_spec cf co u loc s (put_ctx s1 i c').
  Proof.
    intros W (Hnd & Hf & Hpc & Hfind & Hc & (d & Hd & Hdl & ->) & Hr & ->).
    pose proof Hf as [(x & Hx & Ha & Hl & Hh) _]. rewrite (at_det _ _ _ _ Hx Hpc) in *. clear Hx x.
    assert (Hg : exists h, gen_ok s h /\ pc' = set_handle h pc).
    { destruct Hr as [[E _]|(_ & h & Hg & ->)]; [congruence|eauto]. }
    destruct Hg as (h & Hg & ->).
    unfold update_child_pos in Hfind. apply find_some in Hfind as [Hin Hcond].
    apply (in_children cf Hcf s p pc i (wf_forest _ _ W) Hpc) in Hin.
    rewrite (Hc : get_ctx s i = Some c) in Hcond. apply andb_true_iff in Hcond as [Hact Hty].
    apply ctx_state_eqb_eq in Hact. apply N.eqb_eq in Hty.
    assert (Hne : p <> i).
    { intros <-. destruct (fo_acyclic _ _ (wf_forest _ _ W) p) as (l & Hpl).
      - exists pc; split; [exact Hpc|unfold live; congruence].
      - pose proof (child_path cf Hcf _ _ _ _ (wf_forest _ _ W) Hpl Hin) as Hl2.
        pose proof (path_det _ _ _ Hpl _ Hl2) as E. apply (f_equal (@length nat)) in E. cbn in E. lia. }
    assert (SB : same_but_handle pc (set_handle h pc)) by (unfold same_but_handle; cbn; auto 20).
    split.
    - exists p, pc, (set_handle h pc). split; [exact Hnd|]. split; [exact Hf|]. split; [exact Hpc|].
      split; [apply only_put|]. split; [eapply at_put_same; eauto|]. split; [exact SB|].
      apply gen_fresh; exact Hg.
    - intros c' Hr'.
      exists p, pc, (set_handle h pc), i, c, c'. split; [exact Hnd|]. split; [exact Hf|]. split; [exact Hpc|].
      split; [exact Hc|]. split; [exact Hin|]. split; [exact Hact|]. split; [exact Hty|]. split; [auto|].
      split.
      { destruct (only_put2 s i p c' (set_handle h pc)) as (O1 & O2 & O3). split; [exact O1|]. split; [exact O2|].
        intros j Hj. apply O3. tauto. }
      split; [apply at_put_other; [auto|]; eapply at_put_same; eauto|]. split; [exact SB|].
      split; [apply gen_fresh; exact Hg|].
      split; [eapply at_put_same; apply at_put_other; [exact Hne|exact Hc]|].
      destruct (so_cumulative _ _ _ (wf_slot _ _ W _ _ Hc)) as [Hlc _]. rewrite Hlc in Hdl.
      pose proof (rolled_spec _ _ _ Hr') as [(S1 & S2 & S3 & S4 & S5 & S6 & S7 & S8 & S9 & S10 & S11) R].
      cbn in S1, S2, S3, S4, S5, S6, S7, S8, S9, S10, S11.
      split.
      { unfold extended, same_identity. rewrite S1. cbn. repeat split; try assumption.
        apply hashed_hash_of; exact Hd. }
      destruct R as [[R1 R2]|[R1 (R2 & _ & R3)]]; cbn [c_handle set_tci] in R1.
      + split; [auto|]. intros X; contradiction.
      + split; [intros X; contradiction|]. intros _. split; [exact R2|]. split.
        * intros X. apply (R3 p (set_handle h pc)); [|symmetry; exact X]. eapply at_put_same; eauto.
        * intros j d0 Hj Hd0. apply (R3 j). apply at_put_other; auto.
  Qed.

  (** *** Every command *)
  Theorem command_effect (Hcf : config_ok cf) cmd loc w r w' :
    wf cf (w_st w) ->
    exec_command cf C P co po cg cmd loc w = (r, w') ->
    (exists n, r = Ok n /\ effect cf co cmd loc (w_st w) (w_st w')) \/
    (forall n, r <> Ok n) /\
    (w_st w' = w_st w \/
     (r = Err InvalidResponseBuf /\ effect cf co cmd loc (w_st w) (w_st w')) \/
     (exists u, cmd = CmdUpdateContextMeasurement u /\ update_parent u loc (w_st w) (w_st w')) \/
     (exists c, cmd = CmdCertifyKey c /\ r = Err InvalidArgument /\ effect cf co cmd loc (w_st w) (w_st w'))).
  Proof.
    intros W H.
    assert (Q : forall r0 w0, quiet C P w r0 w0 -> (forall n, r0 <> Ok n) /\ w_st w0 = w_st w).
    { intros r0 w0 [[K _] N]. auto. }
    assert (Fin : forall s' bs, finish C P w s' bs r w' ->
              w_st w' = s' /\ ((exists n, r = Ok n) \/ ((forall n, r <> Ok n) /\ r = Err InvalidResponseBuf))).
    { intros s' bs [K [(_ & -> & _)|(_ & -> & _)]]; (split; [exact K|]); [left; eauto|right; split; [discriminate|reflexivity]]. }
    assert (FE : forall s' bs, finish C P w s' bs r w' -> effect cf co cmd loc (w_st w) s' ->
              (exists n, r = Ok n /\ effect cf co cmd loc (w_st w) (w_st w')) \/
              (forall n, r <> Ok n) /\
              (w_st w' = w_st w \/
               (r = Err InvalidResponseBuf /\ effect cf co cmd loc (w_st w) (w_st w')) \/
               (exists u, cmd = CmdUpdateContextMeasurement u /\ update_parent u loc (w_st w) (w_st w')) \/
               (exists c, cmd = CmdCertifyKey c /\ r = Err InvalidArgument /\ effect cf co cmd loc (w_st w) (w_st w')))).
    { intros s' bs K He. destruct (Fin _ _ K) as [<- [(n & ->)|[N ->]]]; [left; eauto|right; auto]. }
    destruct cmd; cbn [exec_command] in H.
    - apply exec_get_profile_inv in H as [H|(bs & H)]; [apply Q in H; tauto|]. eapply FE; [exact H|reflexivity].
    - apply exec_init_inv in H as [H|(s' & bs & Hd & H)]; [apply Q in H; tauto|].
      eapply FE; [exact H|]. eapply init_done_spec; eauto.
    - apply exec_derive_inv in H as [(K & N & _)|[(s' & bs & Hd & H)|[(s' & bs & Hd & H)|(s' & w2 & cr & ph & Hd & H)]]].
      + right; auto.
      + eapply FE; [exact H|]. apply recursive_done_spec in Hd as (B & Hd); [|exact W]. cbn [effect]. rewrite B. exact Hd.
      + eapply FE; [exact H|]. apply child_done_spec in Hd as (B & B2 & Hd); auto. cbn [effect]. rewrite B, B2. exact Hd.
      + apply export_done_spec in Hd as (B & B2 & Hd); auto.
        destruct H as [<- [(_ & -> & _)|(_ & -> & _)]].
        * left. eexists; split; [reflexivity|]. cbn [effect]. rewrite B, B2. exact Hd.
        * right. split; [discriminate|]. right; left. split; [reflexivity|]. cbn [effect]. rewrite B, B2. exact Hd.
    - apply exec_certify_inv in H as [[K N]|(s' & w1 & cr & nh & (i & ctx & _ & _ & Hr) & K & H)]; [right; auto|].
      assert (He : effect cf co (CmdCertifyKey c) loc (w_st w) (w_st w')).
      { cbn [effect]. exists (ck_handle (certify_inner c)). split; [destruct c; reflexivity|].
        rewrite K. eapply handle_rolled_spec; eauto. }
      destruct (pubkey_bytes (certify_profile c) (cr_pubkey cr)) as [pk|].
      + destruct H as [(_ & -> & _)|(_ & -> & _)]; [left; eauto|right; split; [discriminate|auto]].
      + destruct H as [-> _]. right; split; [discriminate|]. right; right; right. eauto.
    - apply exec_sign_inv in H as [H|(s' & bs & Hd & H)]; [apply Q in H; tauto|].
      eapply FE; [exact H|]. destruct Hd as (h & lb & da & i & ctx & sg & sb & nh & w1 & Hi & _ & _ & _ & _ & _ & Hr & _).
      cbn [effect]. exists h. split.
      + destruct c; cbn in *; try congruence. destruct (sr_size c <=? N.of_nat (length (sr_raw c)))%N; congruence.
      + eapply handle_rolled_spec; eauto.
    - apply exec_rotate_inv in H as [H|(s' & bs & Hd & H)]; [apply Q in H; tauto|].
      eapply FE; [exact H|]. eapply rotate_done_spec; eauto.
    - apply exec_destroy_inv in H as [H|(s' & Hd & H)]; [apply Q in H; tauto|].
      eapply FE; [exact H|]. apply (destroy_spec cf Hcf) in Hd; [exact Hd|apply W].
    - apply exec_get_chain_inv in H as [H|(bs & H)]; [apply Q in H; tauto|]. eapply FE; [exact H|reflexivity].
    - apply exec_update_inv in H as [H|(s1 & p & i & pc & pc' & cc & c1 & Hh & H)]; [apply Q in H; tauto|].
      apply (update_half_spec Hcf) in Hh as [H1 H2]; [|exact W].
      destruct H as [(K & _ & N)|(c' & Hr & H)].
      + right. split; [exact N|]. right; right; left. exists c. split; [reflexivity|]. rewrite K. exact H1.
      + eapply FE; [exact H|]. apply H2. exact Hr.
  Qed.
End Specs.
