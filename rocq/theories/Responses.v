(** Responses.v -- proofs about what successful commands write into the response
    buffer, and about failing commands with enough room for the response. *)
From Verif Require Import Base Errors Types StateOps Env Wire Instance Commands Lib Spec Exec
  Effects Forest DestroyProofs History Contract Steps Reach Denials CommandSpecs.
Local Open Scope nat_scope.

Lemma slice_app_l a b o n : o + n <= length a -> slice (a ++ b) o n = slice a o n.
Proof.
  intros H. unfold slice. rewrite skipn_app, firstn_app, skipn_length.
  replace (n - (length a - o)) with 0 by lia. rewrite firstn_O, app_nil_r. reflexivity.
Qed.
Lemma slice_skip a b o n : length a <= o -> slice (a ++ b) o n = slice b (o - length a) n.
Proof. intros H. unfold slice. rewrite skipn_app, (skipn_all2 (n := o)) by lia. reflexivity. Qed.
Lemma slice_all b n : n = length b -> slice b 0 n = b.
Proof. intros ->. unfold slice. cbn [skipn]. apply firstn_all. Qed.
Lemma slice_here a b n : length a = n -> slice (a ++ b) 0 n = a.
Proof. intros H. rewrite slice_app_l by lia. apply slice_all. lia. Qed.

Lemma overwrite_0 out bs : overwrite out 0 bs = bs ++ skipn (length bs) out.
Proof. reflexivity. Qed.

Lemma length_ok_hdr cf : length (ok_hdr_bytes cf) = 12.
Proof. unfold ok_hdr_bytes, response_hdr_bytes. rewrite !app_length, !length_le_bytes. reflexivity. Qed.

Lemma child_not_self cf s p : config_ok cf -> forest cf s -> ~ child_of s p p.
Proof.
  intros Hcf F H. pose proof H as (pc & Hpc & B & _).
  assert (L : live_at s p) by (exists pc; auto).
  destruct (fo_acyclic _ _ F p L) as (l & Hpl).
  pose proof (child_path cf Hcf _ _ _ _ F Hpl H) as Hl2.
  pose proof (path_det _ _ _ Hpl _ Hl2) as E. apply (f_equal (@length nat)) in E. cbn in E. lia.
Qed.

Lemma hdr_success cf rest out : success_header cf (overwrite out 0 (ok_hdr_bytes cf ++ rest)).
Proof.
  unfold success_header. rewrite overwrite_0, <- app_assoc, slice_here by apply length_ok_hdr.
  unfold ok_hdr_bytes, response_hdr_bytes, new_response_hdr. cbn [rh_magic rh_status rh_profile].
  destruct (prof cf); reflexivity.
Qed.

Lemma slice_first cf h rest out : length h = 16 ->
  slice (overwrite out 0 (ok_hdr_bytes cf ++ h ++ rest)) 12 16 = h.
Proof.
  intros H. rewrite overwrite_0, <- !app_assoc, slice_skip by (rewrite length_ok_hdr; lia).
  rewrite length_ok_hdr. apply slice_here. exact H.
Qed.
Lemma slice_second cf h h2 rest out : length h = 16 -> length h2 = 16 ->
  slice (overwrite out 0 (ok_hdr_bytes cf ++ h ++ h2 ++ rest)) 28 16 = h2.
Proof.
  intros H H2. rewrite overwrite_0, <- !app_assoc, slice_skip by (rewrite length_ok_hdr; lia).
  rewrite length_ok_hdr, slice_skip by lia. rewrite H. apply slice_here. exact H2.
Qed.

Section Responses.
  Variable cf : config.
  Hypothesis Hcf : config_ok cf.
  Variables C P : Type.
  Variable co : crypto_ops C.
  Variable po : platform_ops P.
  Variable cg : cert_kind -> cert_args -> nat -> state -> C -> P -> bytes ->
                result cert_result * C * P * bytes.

  Lemma handle_len s i c : wf cf s -> at_slot s i c -> length (c_handle c) = 16.
  Proof. intros W H. apply (so_handle _ _ _ (wf_slot _ _ W i c H)). Qed.

  Lemma rolled_len s c c' : length (c_handle c) = 16 -> rolled s c c' -> length (c_handle c') = 16.
  Proof. intros L [[_ ->]|(_ & h & (_ & H & _) & ->)]; [exact L|]. exact H. Qed.

  Lemma finish_ok (w : world C P) s' bs n w' : finish C P w s' bs (Ok n) w' ->
    n = N.of_nat (length bs) /\ w_out w' = overwrite (w_out w) 0 bs /\ w_st w' = s' /\ length bs <= length (w_out w).
  Proof. intros [-> [(L & E & ->)|(_ & E & _)]]; [|discriminate]. apply Ok_inj in E. auto. Qed.

  Lemma length_new h : length h = 16 -> length (new_handle_resp_bytes cf h) = 28.
  Proof. intros H. unfold new_handle_resp_bytes. rewrite app_length, length_ok_hdr, H. reflexivity. Qed.
  Lemma length_two h h2 : length h = 16 -> length h2 = 16 -> length (two_handle_resp_bytes cf h h2) = 44.
  Proof. intros H H2. unfold two_handle_resp_bytes. rewrite !app_length, length_ok_hdr, H, H2. reflexivity. Qed.

  Lemma new_resp h out : length h = 16 ->
    slice (overwrite out 0 (new_handle_resp_bytes cf h)) 12 16 = h /\
    success_header cf (overwrite out 0 (new_handle_resp_bytes cf h)).
  Proof.
    intros H. unfold new_handle_resp_bytes. split; [|apply hdr_success].
    pose proof (slice_first cf h [] out H) as K. rewrite app_nil_r in K. exact K.
  Qed.
  Lemma two_resp h h2 out : length h = 16 -> length h2 = 16 ->
    slice (overwrite out 0 (two_handle_resp_bytes cf h h2)) 12 16 = h /\
    slice (overwrite out 0 (two_handle_resp_bytes cf h h2)) 28 16 = h2 /\
    success_header cf (overwrite out 0 (two_handle_resp_bytes cf h h2)).
  Proof.
    intros H H2. unfold two_handle_resp_bytes. split; [apply slice_first; exact H|]. split; [|apply hdr_success].
    pose proof (slice_second cf h h2 [] out H H2) as K. rewrite app_nil_r in K. exact K.
  Qed.

  Lemma chain_call_len off size buf w r b (w' : world C P) :
    cert_chain_call C P po off size buf w = (Ok (r, b), w') -> length b = 2048.
  Proof.
    unfold cert_chain_call. destruct (po_certificate_chain po off size buf (w_p w)) as [[? ?] ?].
    intros H. inversion H. apply length_to_buf.
  Qed.

  Lemma profile_len sup w b (w' : world C P) : get_profile cf C P po sup w = (Ok b, w') ->
    exists rest, b = ok_hdr_bytes cf ++ rest /\ length b = 32.
  Proof.
    unfold get_profile. intros H.
    apply bind_inv in H as [(a & w1 & E & H)|[(x & E & X)|(k & E & X)]]; try discriminate.
    apply bind_inv in H as [(a1 & w2 & E1 & H)|[(x & E1 & X)|(k & E1 & X)]]; try discriminate.
    apply ret_inv in H as [H _]. apply Ok_inj in H. subst b.
    eexists. split; [reflexivity|]. unfold get_profile_resp_bytes.
    rewrite !app_length, length_ok_hdr, !length_le_bytes. reflexivity.
  Qed.

  Lemma certify_bytes_len p h pkb k sz : length h = 16 -> pubkey_bytes p k = Some pkb ->
    length (certify_hdr_bytes cf h pkb sz) = certify_hdr_size p.
  Proof.
    intros H Hp. unfold certify_hdr_bytes. rewrite !app_length, length_ok_hdr, H, length_le_bytes.
    destruct p, k; cbn [pubkey_bytes] in Hp; inversion Hp; subst; unfold certify_hdr_size;
      rewrite ?app_length, !length_to_buf; [reflexivity|reflexivity|]; change (N.to_nat mldsa87_pk_size) with (Pos.to_nat 2592); lia.
  Qed.

  Theorem command_reported cmd loc w n w' :
    wf cf (w_st w) -> exec_command cf C P co po cg cmd loc w = (Ok n, w') ->
    success_header cf (w_out w') /\ reported cmd loc (w_st w) (w_st w') (w_out w') n.
  Proof.
    intros W H. destruct cmd; cbn [exec_command] in H.
    - unfold exec_get_profile in H. mstep H.
      apply bind_inv in H as [(b & w1 & E & H)|[(x & E & X)|(k & E & X)]]; try discriminate.
      destruct (profile_len _ _ _ _ E) as (rest & Hb & Lb).
      apply respond_inv in H as [_ [(L & Hn & Ho)|(_ & X & _)]]; [|discriminate]. apply Ok_inj in Hn.
      rewrite Ho, Hb. split; [apply hdr_success|]. cbn [reported]. rewrite Lb in Hn. exact Hn.
    - apply exec_init_inv in H as [[_ N]|(s' & bs & (k & h & Hf & -> & D) & H)]; [exfalso; eapply N; reflexivity|].
      apply finish_ok in H as (-> & -> & -> & _).
      assert (L : length h = 16 /\ exists c, at_slot s' k c /\ c_handle c = h).
      { pose proof Hf as [(old & Hold & _) _].
        destruct D as [(_ & _ & _ & -> & ->)|(_ & _ & _ & (_ & G & _) & ->)].
        - split; [reflexivity|]. eexists. split; [eapply at_put_same with (c := old); exact Hold|reflexivity].
        - split; [exact G|]. eexists. split; [eapply at_put_same with (c := old); exact Hold|reflexivity]. }
      destruct L as [L (c & Hc & Hh)].
      destruct (new_resp h (w_out w) L) as [K1 K2]. split; [exact K2|]. cbn [reported].
      rewrite (length_new h L). split; [reflexivity|]. exists k, c. rewrite Hh. auto.
    - apply exec_derive_inv in H as [(_ & N & _)|[(s' & bs & Hd & H)|[(s' & bs & Hd & H)|(s' & w2 & cr & ph & Hd & H)]]].
      + exfalso; eapply N; reflexivity.
      + apply finish_ok in H as (-> & -> & -> & _).
        destruct Hd as (i & c0 & c' & dg & (_ & Hf & Hc & _) & Hr & _ & _ & _ & _ & R & -> & ->).
        unfold df_recursive in Hr. rewrite contains_bit in Hr.
        assert (L : length (c_handle c') = 16) by (eapply rolled_len; [|exact R]; cbn; eapply handle_len; eauto).
        destruct (two_resp (c_handle c') default_handle (w_out w) L eq_refl) as (K1 & K2 & K3).
        split; [exact K3|]. cbn [reported]. exists i, c'. split; [exact Hf|].
        split; [eapply at_put_same; exact Hc|]. rewrite Hr, length_two by auto. auto.
      + apply finish_ok in H as (-> & -> & Hs & _).
        pose proof (child_done_spec cf C P co Hcf _ _ _ _ _ W Hd) as (B & B2 & _).
        destruct Hd as (p & pc & pc' & k & h & dg & (_ & Hf & Hp & _) & Hr & _ & _ & Ht & Hk & _ & _ & Hh & _ & _ & _ & Hs' & ->).
        assert (Lp : length (c_handle pc') = 16).
        { destruct Ht as [[_ R]|[_ ->]]; [|reflexivity]. eapply rolled_len; [|exact R]. eapply handle_len; eauto. }
        assert (Lh : length h = 16) by (destruct Hh as [[_ ->]|[_ (_ & G & _)]]; [reflexivity|exact G]).
        assert (Hne : p <> k).
        { intros ->. destruct Hk as [(x & Hx & Ix) _]. destruct Hf as [(y & Hy & Ay & _) _].
          rewrite (at_det _ _ _ _ Hx Hy) in Ix. congruence. }
        destruct (two_resp h (c_handle pc') (w_out w) Lh Lp) as (K1 & K2 & K3).
        split; [exact K3|]. cbn [reported]. rewrite B, B2, length_two by auto. rewrite Hs, Hs'.
        eexists p, _. split; [exact Hf|]. split.
        { eapply at_put_same. apply at_put_other; [auto|exact Hp]. }
        split; [reflexivity|]. split; [exact K2|]. exists k. eexists. split; [exact Hk|].
        split; [apply at_put_other; [auto|]; destruct Hk as [(old & Hold & _) _]; eapply at_put_same; exact Hold|].
        exact K1.
      + pose proof (export_done_spec cf C P po cg Hcf _ _ _ _ _ _ _ W Hd) as (B & B2 & _).
        destruct Hd as (p & pc & pc' & u & ue & w1 & (_ & Hf & Hp & _) & _ & _ & _ & _ & Ht & Hst & Ho & _ & _ & Hs).
        destruct H as [Hw [(_ & Hn & Hout)|(_ & X & _)]]; [|discriminate]. apply Ok_inj in Hn. cbv zeta in Hout.
        assert (Q : exists pd, at_slot s' p pd /\ ph = c_handle pd /\ length ph = 16).
        { destruct Hs as [(_ & -> & ->)|(_ & _ & Hdd & pd & Hpd & ->)].
          - exists pc'. split; [eapply at_put_same; exact Hp|]. split; [reflexivity|].
            destruct Ht as [[_ R]|[_ ->]]; [|reflexivity]. eapply rolled_len; [|exact R]. eapply handle_len; eauto.
          - exists pd. split; [exact Hpd|]. split; [reflexivity|].
            apply (destroy_spec cf Hcf) in Hdd; [|apply W]. destruct Hdd as (t & Hft & _ & _ & Hpr).
            destruct (Hpr p pc Hp) as (x & Hx & K1 & _). rewrite (at_det _ _ _ _ Hpd Hx).
            assert (t = p).
            { destruct Hf as [Hn1 Hl1], Hft as [Hn2 Hl2]. destruct (lt_eq_lt_dec t p) as [[?|?]|?]; auto.
              - exfalso; eapply Hl1; eauto.
              - exfalso; eapply Hl2; eauto. }
            subst t. destruct (K1 (doomed_target _ _)) as (_ & -> & _). reflexivity. }
        destruct Q as (pd & Hpd & -> & Lph).
        rewrite Hout. unfold exported_hdr_bytes. split; [apply hdr_success|].
        cbn [reported]. rewrite B, B2, Hw. exists p, pd. split; [exact Hf|]. split; [exact Hpd|].
        split; [rewrite Hn; change exported_hdr_size with 80; lia|].
        split; [apply slice_first; reflexivity|]. apply slice_second; [reflexivity|exact Lph].
    - apply exec_certify_inv in H as [[_ N]|(s' & w1 & cr & nh & (i & ctx & _ & _ & Hr) & K & H)]; [exfalso; eapply N; reflexivity|].
      destruct Hr as (i' & c0 & c' & Hf & Hc & R & Hs & ->).
      assert (L : length (c_handle c') = 16) by (eapply rolled_len; [|exact R]; eapply handle_len; eauto).
      destruct (pubkey_bytes (certify_profile c) (cr_pubkey cr)) as [pk|] eqn:PK; [|destruct H; discriminate].
      cbv zeta in H. destruct H as [(_ & Hn & Ho)|(_ & X & _)]; [|discriminate]. apply Ok_inj in Hn.
      rewrite Ho. unfold certify_hdr_bytes. split; [apply hdr_success|]. cbn [reported].
      split. { rewrite Hn. unfold certify_hdr_size. destruct (certify_profile c); lia. }
      exists (ck_handle (certify_inner c)), i', c'. split; [destruct c; reflexivity|]. split; [exact Hf|].
      split; [rewrite K, Hs; eapply at_put_same; exact Hc|]. apply slice_first; exact L.
    - apply exec_sign_inv in H as [[_ N]|(s' & bs & Hd & H)]; [exfalso; eapply N; reflexivity|].
      apply finish_ok in H as (-> & -> & -> & _).
      destruct Hd as (h & lb & da & i & ctx & sg & sb & nh & w1 & Hi & _ & _ & _ & _ & _ & Hr & ->).
      destruct Hr as (i' & c0 & c' & Hf & Hc & R & Hs & ->).
      assert (L : length (c_handle c') = 16) by (eapply rolled_len; [|exact R]; eapply handle_len; eauto).
      unfold sign_resp_bytes. split; [apply hdr_success|]. cbn [reported].
      split; [rewrite !app_length, length_ok_hdr, L; lia|].
      exists h, i', c'. split.
      { destruct c; cbn in *; try congruence. destruct (sr_size c <=? N.of_nat (length (sr_raw c)))%N; congruence. }
      split; [exact Hf|]. split; [rewrite Hs; eapply at_put_same; exact Hc|]. apply slice_first; exact L.
    - apply exec_rotate_inv in H as [[_ N]|(s' & bs & (i & c & nh & _ & Hf & Hc & -> & -> & D) & H)]; [exfalso; eapply N; reflexivity|].
      apply finish_ok in H as (-> & -> & -> & _).
      assert (L : length nh = 16) by (destruct D as [(_ & -> & _)|(_ & _ & G & _)]; [reflexivity|exact G]).
      destruct (new_resp nh (w_out w) L) as [K1 K2]. split; [exact K2|]. cbn [reported].
      rewrite (length_new nh L). split; [reflexivity|]. exists i. eexists. split; [exact Hf|].
      split; [eapply at_put_same; exact Hc|]. exact K1.
    - apply exec_destroy_inv in H as [[_ N]|(s' & Hd & H)]; [exfalso; eapply N; reflexivity|].
      apply finish_ok in H as (-> & -> & -> & _). rewrite <- (app_nil_r (ok_hdr_bytes cf)) at 1.
      split; [apply hdr_success|]. cbn [reported]. rewrite length_ok_hdr. reflexivity.
    - unfold exec_get_chain in H. mstep H; [discriminate|].
      apply bind_inv in H as [([[len|e0] buf] & w1 & E & H)|[(x & E & X)|(k & E & X)]]; try discriminate.
      apply respond_inv in H as [_ [(L & Hn & Ho)|(_ & X & _)]]; [|discriminate]. apply Ok_inj in Hn.
      rewrite Ho. unfold cert_chain_resp_bytes in *. split; [apply hdr_success|]. cbn [reported].
      rewrite Hn, !app_length, length_ok_hdr, length_le_bytes.
      apply chain_call_len in E. rewrite E. reflexivity.
    - apply exec_update_inv in H as [[_ N]|(s1 & p & i & pc & pc' & cc & c1 & Hh & [(_ & _ & N)|(c2 & R2 & H)])];
        [exfalso; eapply N; reflexivity|exfalso; eapply N; reflexivity|].
      apply finish_ok in H as (-> & -> & Hs & _).
      pose proof (update_half_spec cf C P co Hcf _ _ _ _ _ _ _ _ _ _ W Hh) as [_ U].
      destruct Hh as (Hd & Hf & Hp & Hpos & Hcc & (dg & _ & _ & ->) & R & ->).
      assert (Lp : length (c_handle pc') = 16) by (eapply rolled_len; [|exact R]; eapply handle_len; eauto).
      assert (Lc : length (c_handle c2) = 16) by (eapply rolled_len; [|exact R2]; cbn; eapply handle_len; eauto).
      destruct (two_resp (c_handle c2) (c_handle pc') (w_out w) Lc Lp) as (K1 & K2 & K3).
      split; [exact K3|]. cbn [reported]. rewrite length_two by auto. split; [reflexivity|].
      assert (Hch : child_of (w_st w) p i /\ tci_type (c_tci cc) = uc_tci_type c /\ c_state cc = Active).
      { apply find_some in Hpos as [Hin Hpos]. apply (in_children cf Hcf _ p pc i (wf_forest _ _ W) Hp) in Hin.
        split; [exact Hin|]. apply get_ctx_at in Hcc. rewrite Hcc in Hpos. apply andb_true_iff in Hpos as [P1 P2].
        apply N.eqb_eq in P2. split; [exact P2|]. destruct (c_state cc); try discriminate; reflexivity. }
      destruct Hch as (Hch & Ty & Ac).
      assert (Hne : i <> p). { intros ->. eapply child_not_self; [exact Hcf|apply W|exact Hch]. }
      rewrite Hs. exists p, pc', i, c2. split; [exact Hf|].
      split; [apply at_put_other; [auto|]; eapply at_put_same; exact Hp|].
      split; [exact Hch|]. split; [exact Hne|].
      split; [eapply at_put_same; apply at_put_other; [auto|exact Hcc]|].
      destruct R2 as [[_ ->]|(_ & h2 & _ & ->)]; cbn; auto.
  Qed.

  (** *** Only the response is written *)
  Theorem command_buffer cmd loc w r w' :
    ~ writes_certificate cmd ->
    exec_command cf C P co po cg cmd loc w = (r, w') ->
    (exists bs, r = Ok (N.of_nat (length bs)) /\ length bs <= length (w_out w) /\
                w_out w' = bs ++ skipn (length bs) (w_out w)) \/
    ((forall n, r <> Ok n) /\ w_out w' = w_out w).
  Proof.
    intros NC H.
    assert (Fin : forall s' bs, finish C P w s' bs r w' ->
      (exists bs, r = Ok (N.of_nat (length bs)) /\ length bs <= length (w_out w) /\
                  w_out w' = bs ++ skipn (length bs) (w_out w)) \/
      ((forall n, r <> Ok n) /\ w_out w' = w_out w)).
    { intros s' bs [_ [(L & -> & E)|(_ & -> & E)]]; [left; exists bs; auto|right; split; [discriminate|exact E]]. }
    destruct cmd; cbn [exec_command] in H.
    - apply exec_get_profile_inv in H as [[[_ K] N]|(bs & K)]; [right; auto|eapply Fin; exact K].
    - apply exec_init_inv in H as [[[_ K] N]|(s' & bs & _ & K)]; [right; auto|eapply Fin; exact K].
    - assert (B : N.testbit (dc_flags c) 22 && N.testbit (dc_flags c) 23 = false).
      { apply not_true_is_false. intros B. apply andb_true_iff in B. apply NC. exact B. }
      apply exec_derive_inv in H as [(_ & N & K)|[(s' & bs & Hd & H)|[(s' & bs & Hd & H)|(s' & w2 & cr & ph & Hd & H)]]].
      + right. split; [exact N|]. apply K. unfold df_create_cert, df_export_cdi. rewrite !contains_bit. exact B.
      + eapply Fin; exact H.
      + eapply Fin; exact H.
      + exfalso. destruct Hd as (p & pc & pc' & u & ue & w1 & _ & _ & D1 & D2 & _).
        unfold df_create_cert, df_export_cdi in *. rewrite contains_bit in *. rewrite D1, D2 in B. discriminate.
    - exfalso. apply NC. exact I.
    - apply exec_sign_inv in H as [[[_ K] N]|(s' & bs & _ & K)]; [right; auto|eapply Fin; exact K].
    - apply exec_rotate_inv in H as [[[_ K] N]|(s' & bs & _ & K)]; [right; auto|eapply Fin; exact K].
    - apply exec_destroy_inv in H as [[[_ K] N]|(s' & _ & K)]; [right; auto|eapply Fin; exact K].
    - apply exec_get_chain_inv in H as [[[_ K] N]|(bs & K)]; [right; auto|eapply Fin; exact K].
    - apply exec_update_inv in H as [[[_ K] N]|(s1 & p & i & pc & pc' & cc & c1 & Hh & [(_ & K & N)|(c2 & R2 & K)])];
        [right; auto|right; auto|eapply Fin; exact K].
  Qed.

  (** *** Failing with room for the response *)
  Lemma run_cert_len (Hk : keeps_size cg) k a o w r (w' : world C P) :
    run_cert C P cg k a o w = (r, w') -> length (w_out w') = length (w_out w).
  Proof.
    unfold run_cert. destruct (cg k a o (w_st w) (w_c w) (w_p w) (w_out w)) as [[[r0 c0] p0] o0] eqn:E.
    intros H; inversion H; subst. cbn. eapply Hk; exact E.
  Qed.

  Lemma signature_len sg sb : signature_bytes cf sg = Some sb ->
    28 + length sb <= fixed_size cf (CmdSign (SignP256 {| sg_handle := []; sg_label := []; sg_flags := 0; sg_digest := [] |})).
  Proof.
    cbn [fixed_size]. destruct sg; cbn [signature_bytes]; intros H.
    - destruct (feat_p256 cf); [|discriminate]. inversion H. rewrite app_length, !length_to_buf.
      destruct (feat_mldsa cf), (feat_p384 cf); lia.
    - destruct (feat_p384 cf); [|discriminate]. inversion H. rewrite app_length, !length_to_buf.
      destruct (feat_mldsa cf); lia.
    - destruct (feat_mldsa cf); [|discriminate]. inversion H. rewrite app_length, !length_to_buf. cbn [length].
      change (Pos.to_nat 4627) with (N.to_nat 4627). lia.
  Qed.

  Lemma finish_room (w : world C P) s' bs r w' : length bs <= length (w_out w) ->
    finish C P w s' bs r w' -> exists n, r = Ok n.
  Proof. intros L [_ [(_ & -> & _)|(X & _)]]; [eauto|lia]. Qed.

  Theorem command_room (Hk : keeps_size cg) cmd loc w r w' :
    wf cf (w_st w) -> fixed_size cf cmd <= length (w_out w) ->
    exec_command cf C P co po cg cmd loc w = (r, w') -> (forall n, r <> Ok n) ->
    w_st w' = w_st w \/
    (exists u, cmd = CmdUpdateContextMeasurement u /\ update_parent u loc (w_st w) (w_st w')) \/
    (exists c, cmd = CmdCertifyKey c /\ r = Err InvalidArgument /\ effect cf co cmd loc (w_st w) (w_st w')).
  Proof.
    intros W R H NO.
    assert (Fin : forall s' bs, finish C P w s' bs r w' -> length bs <= fixed_size cf cmd -> False).
    { intros s' bs F L. destruct (finish_room w s' bs r w') as (n & E); [lia|exact F|]. eapply NO; exact E. }
    destruct cmd; cbn [exec_command] in H.
    - left. apply exec_get_profile_inv in H as [[[K _] _]|(bs & K & _)]; exact K.
    - apply exec_init_inv in H as [[[K _] _]|(s' & bs & (k & h & Hf & -> & D) & H)]; [left; exact K|].
      exfalso. eapply Fin; [exact H|]. rewrite length_new; [cbn; lia|].
      destruct D as [(_ & _ & _ & -> & _)|(_ & _ & _ & (_ & G & _) & _)]; [reflexivity|exact G].
    - apply exec_derive_inv in H as [(K & _ & _)|[(s' & bs & Hd & H)|[(s' & bs & Hd & H)|(s' & w2 & cr & ph & Hd & H)]]].
      + left; exact K.
      + exfalso. pose proof (recursive_done_spec cf C P co _ _ _ _ _ W Hd) as (B & (i0 & c0' & c1' & ((_ & _ & _ & _ & G & _) & _))).
        destruct (G B) as (_ & _ & _ & B2).
        eapply Fin; [exact H|]. cbn [fixed_size]. rewrite B2.
        destruct Hd as (i & c0 & c' & dg & (_ & Hf & Hc & _) & Hr & _ & _ & _ & _ & Ro & -> & ->).
        rewrite length_two; [lia| |reflexivity]. eapply rolled_len; [|exact Ro]; cbn; eapply handle_len; eauto.
      + exfalso. pose proof (child_done_spec cf C P co Hcf _ _ _ _ _ W Hd) as (B & B2 & _).
        eapply Fin; [exact H|]. cbn [fixed_size]. rewrite B2.
        destruct Hd as (p & pc & pc' & k & h & dg & (_ & Hf & Hp & _) & Hr & _ & _ & Ht & Hk' & _ & _ & Hh & _ & _ & _ & Hs' & ->).
        rewrite length_two; [lia| |].
        * destruct Hh as [[_ ->]|[_ (_ & G & _)]]; [reflexivity|exact G].
        * destruct Ht as [[_ Ro]|[_ ->]]; [|reflexivity]. eapply rolled_len; [|exact Ro]. eapply handle_len; eauto.
      + exfalso. pose proof (export_done_spec cf C P po cg Hcf _ _ _ _ _ _ _ W Hd) as (B & B2 & _).
        cbn [fixed_size] in R. rewrite B2 in R.
        destruct Hd as (p & pc & pc' & u & ue & w1 & (_ & Hf & Hp & _) & _ & _ & _ & _ & Ht & Hst & Ho & _ & Hrun & Hs).
        apply (run_cert_len Hk) in Hrun. rewrite Ho in Hrun.
        destruct H as [_ [(_ & E & _)|(X & _)]]; [eapply NO; exact E|].
        cbv zeta in X. rewrite Hrun in X. unfold exported_hdr_bytes in X.
        rewrite !app_length, length_ok_hdr, length_to_buf, length_le_bytes in X.
        assert (Lph : length ph = 16).
        { destruct Hs as [(_ & -> & ->)|(_ & _ & Hdd & pd & Hpd & ->)].
          - destruct Ht as [[_ Ro]|[_ ->]]; [|reflexivity]. eapply rolled_len; [|exact Ro]. eapply handle_len; eauto.
          - apply (destroy_spec cf Hcf) in Hdd; [|apply W]. destruct Hdd as (t & Hft & _ & _ & Hpr).
            destruct (Hpr p pc Hp) as (x & Hx & K1 & _). rewrite (at_det _ _ _ _ Hpd Hx).
            assert (t = p).
            { destruct Hf as [Hn1 Hl1], Hft as [Hn2 Hl2]. destruct (lt_eq_lt_dec t p) as [[?|?]|?]; auto.
              - exfalso; eapply Hl1; eauto.
              - exfalso; eapply Hl2; eauto. }
            subst t. destruct (K1 (doomed_target _ _)) as (_ & -> & _). reflexivity. }
        rewrite Lph in X. change (length invalid_handle) with 16 in X. change exported_cdi_size with 32 in X. lia.
    - apply exec_certify_inv in H as [[K _]|(s' & w1 & cr & nh & (i & ctx & _ & Hrun & Hr) & K & H)]; [left; exact K|].
      apply (run_cert_len Hk) in Hrun.
      destruct (pubkey_bytes (certify_profile c) (cr_pubkey cr)) as [pk|] eqn:PK.
      + exfalso. destruct H as [(_ & E & _)|(X & _)]; [eapply NO; exact E|].
        destruct Hr as (i' & c0 & c' & Hf & Hc & Ro & Hs & ->).
        rewrite (certify_bytes_len _ _ _ _ _ ltac:(eapply rolled_len; [|exact Ro]; eapply handle_len; eauto) PK) in X.
        rewrite Hrun in X.
        assert (certify_hdr_size (certify_profile c) <= fixed_size cf (CmdCertifyKey c)); [|lia].
        destruct c; apply Nat.leb_le; reflexivity.
      + right; right. destruct H as [E _]. exists c. split; [reflexivity|]. split; [exact E|].
        cbn [effect]. exists (ck_handle (certify_inner c)). split; [destruct c; reflexivity|].
        rewrite K. eapply handle_rolled_spec; eauto.
    - apply exec_sign_inv in H as [[[K _] _]|(s' & bs & Hd & H)]; [left; exact K|].
      exfalso. eapply Fin; [exact H|].
      destruct Hd as (h & lb & da & i & ctx & sg & sb & nh & w1 & Hi & _ & _ & _ & _ & Hsb & Hr & ->).
      destruct Hr as (i' & c0 & c' & Hf & Hc & Ro & Hs & ->).
      assert (L : length (c_handle c') = 16) by (eapply rolled_len; [|exact Ro]; eapply handle_len; eauto).
      unfold sign_resp_bytes. rewrite !app_length, length_ok_hdr, L.
      apply signature_len in Hsb. cbn [fixed_size] in *. lia.
    - apply exec_rotate_inv in H as [[[K _] _]|(s' & bs & (i & c & nh & _ & Hf & Hc & -> & -> & D) & H)]; [left; exact K|].
      exfalso. eapply Fin; [exact H|]. rewrite length_new; [cbn; lia|].
      destruct D as [(_ & -> & _)|(_ & _ & G & _)]; [reflexivity|exact G].
    - apply exec_destroy_inv in H as [[[K _] _]|(s' & Hd & H)]; [left; exact K|].
      exfalso. eapply Fin; [exact H|]. rewrite length_ok_hdr. cbn; lia.
    - left. apply exec_get_chain_inv in H as [[[K _] _]|(bs & K & _)]; exact K.
    - apply exec_update_inv in H as [[[K _] _]|(s1 & p & i & pc & pc' & cc & c1 & Hh & H)]; [left; exact K|].
      destruct H as [(K & _ & N)|(c2 & R2 & H)].
      + right; left. exists c. split; [reflexivity|]. rewrite K.
        eapply (update_half_spec cf C P co Hcf); eauto.
      + exfalso. eapply Fin; [exact H|].
        destruct Hh as (Hd & Hf & Hp & Hpos & Hcc & (dg & _ & _ & ->) & Ro & ->).
        rewrite length_two; [cbn; lia| |].
        * eapply rolled_len; [|exact R2]; cbn; eapply handle_len; eauto.
        * eapply rolled_len; [|exact Ro]; eapply handle_len; eauto.
  Qed.
End Responses.
