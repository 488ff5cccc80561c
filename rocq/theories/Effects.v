(** Effects.v -- what each command does to the state, as relations, and the
    proof that the executable model does exactly that.  The relations are proof
    support: the properties are stated in the Props_*.v files. *)
From Verif Require Import Base Errors Types StateOps Env Wire Instance Commands Lib Spec Exec.
Local Open Scope nat_scope.
Open Scope dpe_scope.

Section Effects.
  Variable cf : config.
  Variables C P : Type.
  Variable co : crypto_ops C.
  Variable po : platform_ops P.
  Variable cg : cert_kind -> cert_args -> nat -> state -> C -> P -> bytes ->
                result cert_result * C * P * bytes.
  Notation world := (world C P).

  (** Did not succeed, changed neither state nor buffer. *)
  Definition quiet (w : world) (r : result N) (w' : world) : Prop :=
    keep w w' /\ forall a, r <> Ok a.

  Definition inactive_at (s : state) (i : nat) : Prop :=
    exists c, at_slot s i c /\ c_state c = Inactive.

  (** Finish after having reached state [s'] with response [bs]. *)
  Definition finish (w : world) (s' : state) (bs : bytes) (r : result N) (w' : world) : Prop :=
    w_st w' = s' /\
    ((length bs <= length (w_out w) /\ r = Ok (N.of_nat (length bs)) /\
      w_out w' = overwrite (w_out w) 0 bs) \/
     (length (w_out w) < length bs /\ r = Err InvalidResponseBuf /\ w_out w' = w_out w)).

  Lemma responded_finish w w1 s' bs r w' :
    w_out w1 = w_out w -> w_st w1 = s' -> responded C P bs w1 r w' -> finish w s' bs r w'.
  Proof. intros Ho Hs [Hs' H]. rewrite Ho in H. split; [congruence|assumption]. Qed.

  Lemma run_cert_inv k a o w r w' :
    run_cert C P cg k a o w = (r, w') -> w_st w' = w_st w.
  Proof.
    unfold run_cert. destruct (cg k a o (w_st w) (w_c w) (w_p w) (w_out w)) as [[[r0 c0] p0] o0].
    intros H; inversion H; reflexivity.
  Qed.

  Ltac kp E :=
    let K := fresh "K" in
    first
      [ pose proof (generate_new_handle_keeps _ _ _ _ _ _ E) as K
      | pose proof (roll_handle_keeps _ _ _ _ _ _ _ E) as K
      | pose proof (add_tci_keeps _ _ _ _ _ _ _ _ _ E) as K
      | pose proof (do_sign_keeps _ _ _ _ _ _ _ _ _ _ _ E) as K
      | pose proof (get_profile_keeps _ _ _ _ _ _ _ _ E) as K
      | pose proof (cert_chain_call_keeps _ _ _ _ _ _ _ _ _ E) as K
      | pose proof (keeps_platform _ _ _ _ E) as K ];
    destruct K as [? ?].

  Ltac shut := split; [split; cbn [w_st w_out] in *; congruence|discriminate].

  (** ** GetProfile *)
  Lemma exec_get_profile_inv w r w' :
    exec_get_profile cf C P po w = (r, w') ->
    quiet w r w' \/ exists bs, finish w (w_st w) bs r w'.
  Proof.
    unfold exec_get_profile. intros H. mstep H. mstep H.
    - kp E. apply respond_inv in H. right. exists a. eapply responded_finish; eauto.
    - kp E. left; shut.
    - kp E. left; shut.
  Qed.

  (** ** InitializeContext *)
  Definition init_context (ty : ctx_type) (loc : N) (h : bytes) (rec : bool) : context :=
    mkCtx h (mkTci 0 (repeat 0%N (tci_size cf)) (repeat 0%N (tci_size cf)) loc 0) 0 loc ROOT
          ty Active false false true true rec.

  Definition init_done (flags loc : N) (s s' : state) (bs : bytes) : Prop :=
    exists idx h,
      first_slot (inactive_at s) idx /\ bs = new_handle_resp_bytes cf h /\
      ((if_default flags = true /\ if_simulation flags = false /\ st_init s = false /\
        h = default_handle /\
        s' = put_ctx (set_init true s) idx (init_context Normal loc h true)) \/
       (if_simulation flags = true /\ if_default flags = false /\
        sup_simulation (st_support s) = true /\ gen_ok s h /\
        s' = put_ctx s idx (init_context Simulation loc h false))).

  Lemma exec_init_inv flags loc w r w' :
    exec_init cf C P co flags loc w = (r, w') ->
    quiet w r w' \/ exists s' bs, init_done flags loc (w_st w) s' bs /\ finish w s' bs r w'.
  Proof.
    unfold exec_init. intros H. mstep H.
    mstep H; [mstep H; left; shut|]. mstep H; [mstep H; left; shut|].
    mstep H; [|left; shut|left; shut].
    apply ok_or_inv in E as [(idx & Hidx & E)|[_ E]]; [|discriminate]. inversion E; subst a; clear E.
    apply next_inactive_ok in Hidx. pose proof Hidx as [(old & Hold & Hin) _].
    pose proof (nth_error_lt _ _ _ Hold) as Hlt.
    apply orb_false_iff in B as [B1 B2]. apply negb_false_iff in B0.
    mstep H.
    - destruct (if_simulation flags) eqn:S; [discriminate|].
      cbn [andb] in B1, B2. mstep H. mstep H. mstep H.
      mstep H; [|unfold at_slot, get_ctx in *; cbn in G; congruence].
      mstep H; [|cbn in L; lia].
      apply respond_inv in H. right. eexists; eexists; split.
      + exists idx, default_handle. split; [exact Hidx|]. split; [reflexivity|].
        left. repeat (split; [first [assumption|reflexivity]|]). reflexivity.
      + eapply responded_finish in H; [exact H|reflexivity|reflexivity].
    - destruct (if_simulation flags) eqn:S; [|discriminate].
      cbn [andb] in B1, B2. apply negb_false_iff in B2. mstep H.
      mstep H; [|kp E; left; shut|kp E; left; shut]. kp E. apply generate_new_handle_ok in E.
      mstep H. mstep H; [|unfold at_slot, get_ctx in *; rewrite H0 in G; congruence].
      mstep H; [|rewrite H0 in L; lia].
      apply respond_inv in H. right. eexists; eexists; split.
      + exists idx, a. split; [exact Hidx|]. split; [reflexivity|].
        right. repeat (split; [first [assumption|reflexivity]|]). reflexivity.
      + eapply responded_finish in H; [exact H|exact H1|cbn [w_st]; rewrite H0; reflexivity].
  Qed.

  (** ** DestroyContext *)
  Lemma exec_destroy_inv h loc w r w' :
    exec_destroy cf C P h loc w = (r, w') ->
    quiet w r w' \/
    exists s', destroy_context cf h (w_st w) loc = Ok s' /\ finish w s' (ok_hdr_bytes cf) r w'.
  Proof.
    unfold exec_destroy. intros H. mstep H. mstep H; [|left; shut|left; shut]. mstep H.
    apply respond_inv in H. right. exists a. split; [exact E|].
    eapply responded_finish in H; [exact H|reflexivity|reflexivity].
  Qed.

  (** ** RotateContextHandle *)
  Definition rotate_done (h : bytes) (flags loc : N) (s s' : state) (bs : bytes) : Prop :=
    exists idx c nh,
      sup_rotate (st_support s) = true /\
      first_slot (names s h loc) idx /\ at_slot s idx c /\
      s' = put_ctx s idx (set_handle nh c) /\ bs = new_handle_resp_bytes cf nh /\
      ((rf_target_default flags = true /\ nh = default_handle /\
        (forall i, ~ names s default_handle loc i) /\
        (forall i ci, at_slot s i ci -> c_state ci = Active -> c_locality ci = loc ->
                      c_handle ci <> default_handle -> i = idx)) \/
       (rf_target_default flags = false /\ gen_ok s nh)).

  Lemma other_non_default_false s loc idx :
    other_non_default s loc idx = false ->
    forall i ci, at_slot s i ci -> c_state ci = Active -> c_locality ci = loc ->
                 c_handle ci <> default_handle -> i = idx.
  Proof.
    unfold other_non_default. intros H i ci Hi Ha Hl Hh.
    destruct (Nat.eq_dec i idx) as [|Hne]; [assumption|]. exfalso.
    assert (existsb (fun p : nat * context =>
              ctx_state_eqb (c_state (snd p)) Active && N.eqb (c_locality (snd p)) loc &&
              negb (handle_is_default (c_handle (snd p))) && negb (Nat.eqb (fst p) idx))
              (enumerate (st_contexts s)) = true); [|congruence].
    apply existsb_exists. exists (i, ci). split; [apply in_enumerate; exact Hi|].
    cbn [fst snd]. rewrite Ha, Hl, N.eqb_refl. apply handle_is_default_neq in Hh. rewrite Hh.
    apply Nat.eqb_neq in Hne. rewrite Hne. reflexivity.
  Qed.

  Lemma lookup_not_ok s h loc :
    is_ok (get_active_context_pos s h loc) = false -> forall i, ~ names s h loc i.
  Proof.
    pose proof (lookup_spec s h loc) as L.
    destruct (get_active_context_pos s h loc) as [i|e|k]; cbn; [discriminate| |contradiction].
    intros _. destruct e; try contradiction; [apply L|].
    intros i (c & Hc & Ha & Hl & _). exact (L _ _ Hc Ha Hl).
  Qed.

  Lemma exec_rotate_inv h flags loc w r w' :
    exec_rotate cf C P co h flags loc w = (r, w') ->
    quiet w r w' \/ exists s' bs, rotate_done h flags loc (w_st w) s' bs /\ finish w s' bs r w'.
  Proof.
    unfold exec_rotate. intros H. mstep H.
    mstep H; [mstep H; left; shut|]. apply negb_false_iff in B.
    mstep H; [|left; shut|left; shut]. apply lookup_ok in E.
    pose proof E as [(c & Hc & _) _]. pose proof (nth_error_lt _ _ _ Hc) as Hlt.
    mstep H; [mstep H; left; shut|].
    mstep H.
    - cbn [andb] in B0. apply orb_false_iff in B0 as [B3 B4].
      mstep H. mstep H; [|unfold at_slot, get_ctx in *; congruence].
      mstep H; [|lia]. apply respond_inv in H. right. eexists; eexists; split.
      + exists a, c0, default_handle. repeat (split; [first [eassumption|reflexivity]|]).
        left. split; [assumption|]. split; [reflexivity|].
        split; [apply lookup_not_ok; exact B3|apply other_non_default_false; exact B4].
      + eapply responded_finish in H; [exact H|reflexivity|reflexivity].
    - mstep H; [|kp E0; left; shut|kp E0; left; shut]. kp E0. apply generate_new_handle_ok in E0.
      mstep H; [|unfold at_slot, get_ctx in *; rewrite H0 in G; congruence].
      rewrite H0 in G.
      mstep H; [|rewrite H0 in L; lia]. apply respond_inv in H. right. eexists; eexists; split.
      + exists a, c0, a0. repeat (split; [first [eassumption|reflexivity]|]).
        right. auto.
      + eapply responded_finish in H; [exact H|exact H1|cbn [w_st]; rewrite H0; reflexivity].
  Qed.

  (** ** Sign *)
  Definition handle_rolled (h : bytes) (loc : N) (s s' : state) (nh : bytes) : Prop :=
    exists idx c c',
      first_slot (names s h loc) idx /\ at_slot s idx c /\ rolled s c c' /\
      s' = put_ctx s idx c' /\ nh = c_handle c'.

  Definition sign_done (c : sign_command) (loc : N) (w : world) (s' : state) (bs : bytes) : Prop :=
    exists h label data idx ctx sg sb nh w1,
      sign_inputs c = Ok (h, label, data) /\
      first_slot (names (w_st w) h loc) idx /\ at_slot (w_st w) idx ctx /\
      c_type ctx <> Simulation /\
      do_sign cf C P co po idx label data w = (Ok sg, w1) /\
      signature_bytes cf sg = Some sb /\
      handle_rolled h loc (w_st w) s' nh /\ bs = sign_resp_bytes cf nh sb.

  Lemma exec_sign_inv c loc w r w' :
    exec_sign cf C P co po c loc w = (r, w') ->
    quiet w r w' \/ exists s' bs, sign_done c loc w s' bs /\ finish w s' bs r w'.
  Proof.
    unfold exec_sign. intros H. mstep H; [|left; shut|left; shut].
    destruct a as [[h label] data]. mstep H.
    mstep H; [|left; shut|left; shut]. apply lookup_ok in E0.
    pose proof E0 as [(c0 & Hc & _) _]. pose proof (nth_error_lt _ _ _ Hc) as Hlt.
    mstep H; [|left; shut]. mstep H; [mstep H; left; shut|].
    mstep H; [|kp E1; left; shut|kp E1; left; shut]. pose proof E1 as Esg. kp E1.
    destruct (signature_bytes cf a0) as [sb|] eqn:Sb; [|mstep H; left; shut].
    mstep H; [|unfold at_slot, get_ctx in *; rewrite H0 in G0; congruence].
    mstep H; [|kp E2; left; shut|kp E2; left; shut]. kp E2. apply roll_handle_ok in E2.
    rewrite H0 in *.
    mstep H; [|rewrite H2 in L; lia]. apply respond_inv in H. right. eexists; eexists; split.
    + exists h, label, data, a, c1, a0, sb, (c_handle a1), w1.
      repeat (split; [first [eassumption|reflexivity]|]).
      split; [apply ctx_type_eqb_neq; exact B|].
      repeat (split; [first [eassumption|reflexivity]|]).
      split; [|reflexivity]. exists a, c2, a1. repeat (split; [first [eassumption|reflexivity]|]). reflexivity.
    + eapply responded_finish in H; [exact H|cbn [w_out]; congruence|cbn [w_st]; rewrite H2; reflexivity].
  Qed.

  (** ** GetCertificateChain *)
  Lemma exec_get_chain_inv off size w r w' :
    exec_get_chain cf C P po off size w = (r, w') ->
    quiet w r w' \/ exists bs, finish w (w_st w) bs r w'.
  Proof.
    unfold exec_get_chain. intros H. mstep H; [mstep H; left; shut|].
    mstep H; [|kp E; left; shut|kp E; left; shut]. kp E. destruct a as [[len|e] buf].
    - apply respond_inv in H. right. eexists. eapply responded_finish; eauto.
    - mstep H. left; shut.
  Qed.

  (** ** CertifyKey *)
  Definition certify_ok (p : profile) (c : certify_cmd) (loc : N) (s : state) (idx : nat)
             (ctx : context) : Prop :=
    first_slot (names s (ck_handle c) loc) idx /\ at_slot s idx ctx /\
    ((ck_format c = 0%N /\ sup_x509 (st_support s) = true /\ c_x509 ctx = true) \/
     (ck_format c = 1%N /\ sup_csr (st_support s) = true)).

  Definition certify_args (c : certify_cmd) (loc : N) (s : state) : cert_args :=
    {| ca_handle := ck_handle c; ca_locality := loc; ca_cdi_label := str_DPE;
       ca_key_label := ck_label c; ca_context := key_context (prof cf);
       ca_ueid := ck_label c; ca_critical := flag_dice_critical (st_flags s) |}.

  Definition certify_done (cmd : certify_command) (loc : N) (w : world) (s' : state)
             (w1 : world) (cr : cert_result) (nh : bytes) : Prop :=
    let c := certify_inner cmd in
    let p := certify_profile cmd in
    exists idx ctx,
      certify_ok p c loc (w_st w) idx ctx /\
      run_cert C P cg (if N.eqb (ck_format c) 0 then KindX509 else KindCsr)
               (certify_args c loc (w_st w)) (certify_hdr_size p) w = (Ok cr, w1) /\
      handle_rolled (ck_handle c) loc (w_st w) s' nh.

  (** Outcome of the part after the handle has been stored. *)
  Definition certify_finish (p : profile) (w1 : world) (s' : state) (cr : cert_result)
             (nh : bytes) (r : result N) (w' : world) : Prop :=
    w_st w' = s' /\
    match pubkey_bytes p (cr_pubkey cr) with
    | None => r = Err InvalidArgument /\ w_out w' = w_out w1
    | Some pk =>
        let bs := certify_hdr_bytes cf nh pk (cr_size cr) in
        (length bs <= length (w_out w1) /\
         r = Ok (N.of_nat (certify_hdr_size p) + cr_size cr)%N /\
         w_out w' = overwrite (w_out w1) 0 bs) \/
        (length (w_out w1) < length bs /\ r = Err InvalidResponseBuf /\ w_out w' = w_out w1)
    end.

  Lemma exec_certify_inv cmd loc w r w' :
    exec_certify cf C P co cg cmd loc w = (r, w') ->
    (w_st w' = w_st w /\ forall a, r <> Ok a) \/
    exists s' w1 cr nh, certify_done cmd loc w s' w1 cr nh /\
                        certify_finish (certify_profile cmd) w1 s' cr nh r w'.
  Proof.
    unfold exec_certify. set (c := certify_inner cmd). set (p := certify_profile cmd).
    intros H. mstep H. mstep H; [|left; shut|left; shut]. apply lookup_ok in E.
    pose proof E as [(c0 & Hc & Ha & Hl & Hh) Hlow]. pose proof (nth_error_lt _ _ _ Hc) as Hlt.
    mstep H; [|unfold at_slot, get_ctx in *; congruence].
    mstep H; [mstep H; left; split; [congruence|discriminate]|].
    mstep H; [mstep H; left; split; [congruence|discriminate]|].
    mstep H; [mstep H; left; split; [congruence|discriminate]|].
    mstep H; [mstep H; left; split; [congruence|discriminate]|].
    set (args := {| ca_handle := ck_handle c |}) in *.
    assert (Hc1 : c1 = c0) by (unfold at_slot, get_ctx in *; congruence). subst c1.
    assert (F : forall k w2 cr,
      run_cert C P cg k args (certify_hdr_size p) w = (Ok cr, w2) ->
      k = (if N.eqb (ck_format c) 0 then KindX509 else KindCsr) ->
      certify_ok p c loc (w_st w) a c0 ->
      (let! ctx := st_index C P a in
       let! ctx0 := roll_handle C P co ctx in
       st_assign C P a ctx0;;
       match pubkey_bytes p (cr_pubkey cr) with
       | Some pk =>
         write_out 0 (certify_hdr_bytes cf (c_handle ctx0) pk (cr_size cr)) ;;
         ret (N.of_nat (certify_hdr_size p) + cr_size cr)%N
       | None => fail InvalidArgument
       end) w2 = (r, w') ->
      (w_st w' = w_st w /\ forall a0, r <> Ok a0) \/
      exists s' w1 cr0 nh, certify_done cmd loc w s' w1 cr0 nh /\
                           certify_finish p w1 s' cr0 nh r w').
    { clear H. intros k w2 cr Hr Hk Hok H. pose proof (run_cert_inv _ _ _ _ _ _ Hr) as Hst.
      mstep H; [|unfold at_slot, get_ctx in *; rewrite Hst in G0; congruence].
      rewrite Hst in G0.
      mstep H; [|kp E0; left; split; [congruence|discriminate]|kp E0; left; split; [congruence|discriminate]].
      kp E0. apply roll_handle_ok in E0. rewrite Hst in *.
      mstep H; [|rewrite H0 in L; lia].
      right.
      exists (put_ctx (w_st w) a a0), w2, cr, (c_handle a0). split.
      - exists a, c0. split; [exact Hok|]. split; [rewrite Hk in Hr; exact Hr|].
        exists a, c1, a0. repeat (split; [first [eassumption|reflexivity]|]). reflexivity.
      - unfold certify_finish. destruct (pubkey_bytes p (cr_pubkey cr)) as [pk|].
        + mstep H.
          * apply write_out_inv in E1 as (Hs & _ & _ & [(L1 & R & O)|(L1 & R & O)]); [|discriminate].
            mstep H. cbn [w_st w_out] in *. split; [congruence|]. left.
            rewrite H1 in L1, O. auto.
          * apply write_out_inv in E1 as (Hs & _ & _ & [(L1 & R & O)|(L1 & R & O)]); [discriminate|].
            cbn [w_st w_out] in *. split; [congruence|]. right. rewrite H1 in L1, O. inversion R; auto.
          * exfalso; revert E1; apply nocrash_write_out.
        + mstep H. cbn [w_st w_out]. split; [congruence|]. auto. }
    mstep H.
    - cbn [andb] in B, B0. pose proof B3 as B5. apply N.eqb_eq in B5.
      apply negb_false_iff in B, B0.
      mstep H.
      + eapply F; [exact E0|try rewrite B3; reflexivity| |exact H]. split; [exact E|]. split; [exact Hc|]. left; auto.
      + left; split; [eapply run_cert_inv; eauto|discriminate].
      + left; split; [eapply run_cert_inv; eauto|discriminate].
    - mstep H.
      + cbn [andb] in B1. apply negb_false_iff in B1.
        mstep H.
        * eapply F; [exact E0|try rewrite B3; reflexivity| |exact H]. split; [exact E|]. split; [exact Hc|]. right.
          apply N.eqb_eq in B4. auto.
        * left; split; [eapply run_cert_inv; eauto|discriminate].
        * left; split; [eapply run_cert_inv; eauto|discriminate].
      + mstep H. left; split; [congruence|discriminate].
  Qed.

  (** ** UpdateContextMeasurement *)
  Definition update_child_pos (u : update_cmd) (s : state) (pc : context) (child : nat) : Prop :=
    find (fun i => match get_ctx s i with
                   | Some x => ctx_state_eqb (c_state x) Active
                               && N.eqb (tci_type (c_tci x)) (uc_tci_type u)
                   | None => false
                   end) (children_iter cf (c_children pc)) = Some child.

  (** Everything up to and including the new parent handle. *)
  Definition update_half (u : update_cmd) (loc : N) (s s1 : state) (parent child : nat)
             (pc pc' cc cc' : context) : Prop :=
      uc_parent_handle u <> default_handle /\
      first_slot (names s (uc_parent_handle u) loc) parent /\ at_slot s parent pc /\
      update_child_pos u s pc child /\ at_slot s child cc /\
      (exists d, hashed C P co [tci_cumulative (c_tci cc); uc_data u] d /\
                 length d = length (tci_cumulative (c_tci cc)) /\
                 cc' = set_tci (extend (c_tci cc) d (uc_data u)) cc) /\
      rolled s pc pc' /\ s1 = put_ctx s parent pc'.

  Lemma exec_update_inv u loc w r w' :
    exec_update cf C P co u loc w = (r, w') ->
    quiet w r w' \/
    exists s1 parent child pc pc' cc cc',
      update_half u loc (w_st w) s1 parent child pc pc' cc cc' /\
      ((w_st w' = s1 /\ w_out w' = w_out w /\ forall a, r <> Ok a) \/
       exists cc'', rolled s1 cc' cc'' /\
         finish w (put_ctx s1 child cc'')
                (two_handle_resp_bytes cf (c_handle cc'') (c_handle pc')) r w').
  Proof.
    unfold exec_update. intros H. mstep H; [mstep H; left; shut|].
    apply handle_is_default_neq in B.
    mstep H. mstep H; [|left; shut|left; shut].
    assert (Hp : get_active_context_pos (w_st w) (uc_parent_handle u) loc = Ok a).
    { destruct (get_active_context_pos (w_st w) (uc_parent_handle u) loc); congruence. }
    clear E. apply lookup_ok in Hp. pose proof Hp as [(c0 & Hc & _) _].
    pose proof (nth_error_lt _ _ _ Hc) as Hlt.
    mstep H; [|left; shut].
    mstep H; [|left; shut|left; shut].
    apply ok_or_inv in E as [(ch & Hch & E)|[_ E]]; [|discriminate]. inversion E; subst a0; clear E.
    mstep H; [|left; shut].
    mstep H; [|kp E; left; shut|kp E; left; shut]. kp E. apply add_tci_ok in E as (Ha & _ & d & Hd & Hl & ->).
    mstep H; [|left; shut]. rewrite H0 in *.
    assert (c2 = c) by congruence. subst c2.
    mstep H; [|kp E; left; shut|kp E; left; shut]. kp E. apply roll_handle_ok in E.
    rewrite H0 in E.
    mstep H; [|rewrite H2, H0 in L; lia].
    right. exists (put_ctx (w_st w) a a0), a, ch, c, a0, c1,
      (set_tci (extend (c_tci c1) d (uc_data u)) c1).
    split.
    { repeat (split; [first [eassumption|reflexivity]|]).
      split; [exists d; auto|]. split; [exact E|reflexivity]. }
    mstep H; [|kp E0; left; cbn [w_st w_out] in *; repeat split; [congruence|congruence|discriminate]
              |kp E0; left; cbn [w_st w_out] in *; repeat split; [congruence|congruence|discriminate]].
    kp E0. apply roll_handle_ok in E0. cbn [w_st w_out] in *.
    right. exists a1.
    mstep H.
    2:{ exfalso. rewrite H4, H2, H0 in L0. cbn in L0. rewrite length_upd in L0.
        apply nth_error_lt in G0. lia. }
    apply respond_inv in H. split; [congruence|].
    eapply responded_finish in H; [exact H|cbn [w_out]; congruence|cbn [w_st]; congruence].
  Qed.

  (** ** DeriveContext *)
  Definition derive_ok (c : derive_cmd) (loc : N) (s : state) (parent : nat) (pc : context) : Prop :=
    derive_unsupported (st_support s) (dc_flags c) = false /\
    first_slot (names s (dc_handle c) loc) parent /\ at_slot s parent pc /\
    derive_bad_args pc (dc_flags c) = false.

  Definition derive_target (c : derive_cmd) (loc : N) : N :=
    if df_change_locality (dc_flags c) then dc_target_locality c else loc.

  Definition derive_recursive_done (c : derive_cmd) (loc : N) (s s' : state) (bs : bytes) : Prop :=
    exists parent pc pc' d,
      derive_ok c loc s parent pc /\ df_recursive (dc_flags c) = true /\
      tci_type (c_tci pc) = dc_tci_type c /\ derive_target c loc = loc /\
      hashed C P co [tci_cumulative (c_tci pc); dc_data c] d /\
      length d = length (tci_cumulative (c_tci pc)) /\
      rolled s (set_tci (extend (c_tci pc) d (dc_data c)) pc) pc' /\
      s' = put_ctx s parent pc' /\
      bs = two_handle_resp_bytes cf (c_handle pc') default_handle.

  Definition tmp_parent (flags : N) (s : state) (pc pc' : context) : Prop :=
    (df_retain_parent flags = true /\ rolled s pc pc') \/
    (df_retain_parent flags = false /\ pc' = set_handle invalid_handle (set_state Retired pc)).

  Definition sibling_free (s : state) (pc : context) (ty : N) : Prop :=
    tci_type_unique s (children_iter cf (c_children pc)) ty = Ok true.

  Definition child_context (c : derive_cmd) (parent : nat) (pc : context) (target : N)
             (h d : bytes) : context :=
    let f := dc_flags c in
    mkCtx h (mkTci (dc_tci_type c) d (dc_data c) target (dc_svn c)) 0 target parent
          (c_type pc) Active (df_internal_info f) (df_internal_dice f) (df_allow_x509 f)
          (df_allow_export f && c_export pc) (df_allow_recursive f && c_recursive pc).

  Definition derive_child_done (c : derive_cmd) (loc : N) (s s' : state) (bs : bytes) : Prop :=
    exists parent pc pc' child h d,
      derive_ok c loc s parent pc /\ df_recursive (dc_flags c) = false /\
      (df_create_cert (dc_flags c) && df_export_cdi (dc_flags c))%bool = false /\
      sibling_free s pc (dc_tci_type c) /\
      tmp_parent (dc_flags c) s pc pc' /\
      first_slot (inactive_at s) child /\ child < max_handles cf /\
      safe_to_make_child s (dc_flags c) parent (derive_target c loc) = true /\
      ((df_make_default (dc_flags c) = true /\ h = default_handle) \/
       (df_make_default (dc_flags c) = false /\ gen_ok s h)) /\
      hashed C P co [repeat 0%N (tci_size cf); dc_data c] d /\ length d = tci_size cf /\
      (no_repeat co -> df_retain_parent (dc_flags c) = true -> h <> default_handle ->
       h <> c_handle pc') /\
      s' = put_ctx (put_ctx s child (child_context c parent pc (derive_target c loc) h d))
                   parent (set_children (N.lor (c_children pc) (N.shiftl 1 (N.of_nat child))) pc') /\
      bs = two_handle_resp_bytes cf h (c_handle pc').

  Definition export_args (c : derive_cmd) (loc : N) (s : state) (ueid : bytes) : cert_args :=
    {| ca_handle := dc_handle c; ca_locality := loc; ca_cdi_label := str_exported_cdi;
       ca_key_label := exported_label (prof cf); ca_context := exported_label (prof cf);
       ca_ueid := ueid; ca_critical := flag_dice_critical (st_flags s) |}.

  Definition derive_export_done (c : derive_cmd) (loc : N) (w : world) (s' : state)
             (w2 : world) (cr : cert_result) (ph : bytes) : Prop :=
    exists parent pc pc' u ueid w1,
      derive_ok c loc (w_st w) parent pc /\ df_recursive (dc_flags c) = false /\
      df_create_cert (dc_flags c) = true /\ df_export_cdi (dc_flags c) = true /\
      sibling_free (w_st w) pc (dc_tci_type c) /\
      tmp_parent (dc_flags c) (w_st w) pc pc' /\
      w_st w1 = w_st w /\ w_out w1 = w_out w /\
      (ueid_get u = Some ueid /\ exists p p', po_ueid po p = (inl u, p')) /\
      run_cert C P cg KindExported (export_args c loc (w_st w) ueid) exported_hdr_size w1
        = (Ok cr, w2) /\
      ((df_retain_parent (dc_flags c) || has_children (c_children pc) = true /\
        s' = put_ctx (w_st w) parent pc' /\ ph = c_handle pc')%bool \/
       (df_retain_parent (dc_flags c) = false /\ has_children (c_children pc) = false /\
        destroy_context cf (dc_handle c) (w_st w) loc = Ok s' /\
        exists pd, at_slot s' parent pd /\ ph = c_handle pd)).

  Definition export_finish (w2 : world) (s' : state) (cr : cert_result) (ph : bytes)
             (r : result N) (w' : world) : Prop :=
    let bs := exported_hdr_bytes cf invalid_handle ph
                (to_buf exported_cdi_size (cr_exported cr)) (cr_size cr) in
    w_st w' = s' /\
    ((length bs <= length (w_out w2) /\
      r = Ok (N.of_nat exported_hdr_size + cr_size cr)%N /\
      w_out w' = overwrite (w_out w2) 0 bs) \/
     (length (w_out w2) < length bs /\ r = Err InvalidResponseBuf /\ w_out w' = w_out w2)).

  Lemma derive_tmp_parent_inv flags pc w r w' :
    derive_tmp_parent C P co flags pc w = (r, w') ->
    keep w w' /\ match r with
                 | Ok pc' => tmp_parent flags (w_st w) pc pc' /\
                     (c_handle pc' = default_handle \/ df_retain_parent flags = false \/
                      exists w0, generate_new_handle C P co w0 = (Ok (c_handle pc'), w'))
                 | Err _ => True
                 | Crash _ => False
                 end.
  Proof.
    unfold derive_tmp_parent, tmp_parent. intros H. destruct (df_retain_parent flags) eqn:R.
    - mstep H.
      + apply negb_true_iff, handle_is_default_neq in B.
        mstep H; [|kp E; split; [split; assumption|exact I]
                  |exfalso; revert E; apply generate_new_handle_nocrash].
        kp E. pose proof E as E'. apply generate_new_handle_ok in E. mstep H. split; [split; assumption|].
        split; [left; split; [reflexivity|]; right; eauto|]. right; right. cbn [set_handle c_handle]. eauto.
      + apply negb_false_iff, handle_is_default_eq in B. mstep H. split; [apply keep_refl|].
        split; [left; split; [reflexivity|]; left; auto|]. left; exact B.
    - mstep H. split; [apply keep_refl|]. split; [right; auto|]. right; left; reflexivity.
  Qed.

  Lemma destroy_length h s loc s' :
    destroy_context cf h s loc = Ok s' -> length (st_contexts s') = length (st_contexts s).
  Proof.
    unfold destroy_context. intros H.
    destruct (get_active_context_and_idx s h loc) as [[c idx]|e|k]; cbn [rbind] in H; try discriminate.
    destruct (negb (N.eqb (c_locality c) loc)); try discriminate.
    destruct (collect_retired cf (fuel cf) s (c_parent c) 0) as [rt|e|k]; cbn [rbind] in H; try discriminate.
    destruct (get_descendants cf (fuel cf) s c) as [de|e|k]; cbn [rbind] in H; try discriminate.
    destruct (children_add cf de idx) as [d1|e|k]; cbn [rbind] in H; try discriminate.
    inversion H; subst. unfold destroy_slots; cbn [set_contexts st_contexts].
    rewrite map_length, length_enumerate. reflexivity.
  Qed.

  Lemma exec_derive_inv c loc w r w' :
    exec_derive cf C P co po cg c loc w = (r, w') ->
    (w_st w' = w_st w /\ (forall a, r <> Ok a) /\
     ((df_create_cert (dc_flags c) && df_export_cdi (dc_flags c))%bool = false ->
      w_out w' = w_out w)) \/
    (exists s' bs, derive_recursive_done c loc (w_st w) s' bs /\ finish w s' bs r w') \/
    (exists s' bs, derive_child_done c loc (w_st w) s' bs /\ finish w s' bs r w') \/
    (exists s' w2 cr ph, derive_export_done c loc w s' w2 cr ph /\
                         export_finish w2 s' cr ph r w').
  Proof.
    Ltac shut3 := left; cbn [w_st w_out] in *; split; [congruence|split; [discriminate|intros; congruence]].
    Ltac shx := left; cbn [w_st w_out] in *; split; [congruence|split; [discriminate|congruence]].
    unfold exec_derive. intros H. mstep H. mstep H; [mstep H; shut3|].
    mstep H; [|shut3|shut3]. destruct a as [pc parent]. apply lookup_idx_ok in E as [Hf Hpc].
    pose proof (nth_error_lt _ _ _ Hpc) as Hlt. pose proof Hf as [(pc0 & Hpc0 & Ha & Hl & Hh) _].
    assert (pc0 = pc) by (unfold at_slot in *; congruence). subst pc0.
    mstep H; [mstep H; shut3|].
    assert (Hok : derive_ok c loc (w_st w) parent pc) by (split; [exact B|]; auto).
    mstep H.
    - (* recursive *)
      fold (derive_target c loc) in H. unfold derive_recursive in H.
      mstep H; [|shut3]. assert (c0 = pc) by (unfold at_slot, get_ctx in *; congruence). subst c0.
      mstep H; [mstep H; shut3|]. apply negb_false_iff, N.eqb_eq in B2.
      mstep H; [|kp E; shut3|kp E; shut3]. kp E. apply add_tci_ok in E as (_ & Hloc & d & Hd & Hdl & ->).
      mstep H; [|kp E; shut3|kp E; shut3]. kp E. apply roll_handle_ok in E. rewrite H0 in E.
      mstep H; [|rewrite H2, H0 in L; lia].
      apply respond_inv in H. right; left. eexists; eexists; split.
      + exists parent, pc, a, d. repeat (split; [first [eassumption|reflexivity]|]).
        split; [congruence|]. repeat (split; [first [eassumption|reflexivity]|]). reflexivity.
      + eapply responded_finish in H; [exact H|cbn [w_out]; congruence|cbn [w_st]; rewrite H2, H0; reflexivity].
    - mstep H; [|shut3|shut3].
      mstep H; [mstep H; shut3|]. apply negb_false_iff in B2. subst a.
      mstep H; [|shut3]. assert (c0 = pc) by (unfold at_slot, get_ctx in *; congruence). subst c0.
      mstep H.
      2:{ apply derive_tmp_parent_inv in E0 as [[K1 K2] _]. shut3. }
      2:{ apply derive_tmp_parent_inv in E0 as [_ []]. }
      apply derive_tmp_parent_inv in E0 as ([K1 K2] & Htp & Hgen).
      mstep H.
      + (* export *)
        apply andb_true_iff in B2 as [Bc Bx].
        unfold derive_export in H.
        mstep H; [|kp E0; shx
                  |kp E0; shx].
        assert (Hpu : exists p p', po_ueid po p = (inl a0, p')).
        { unfold platform in E0. destruct (po_ueid po (w_p w1)) as [[u0|u0] p0] eqn:EU; [|discriminate].
          apply (f_equal fst) in E0. cbn [fst] in E0. inversion E0; subst u0. exists (w_p w1), p0. exact EU. }
        kp E0. match type of E0 with _ = (Ok ?x, ?y) => rename y into wu end.
        mstep H; [|shx|shx].
        apply ok_or_inv in E1 as [(ue & Hue & E1)|[_ E1]]; [|discriminate]. inversion E1; subst a1; clear E1.
        mstep H.
        mstep H;
          [|apply run_cert_inv in E1; shx
           |apply run_cert_inv in E1; shx].
        pose proof (run_cert_inv _ _ _ _ _ _ E1) as Hrc.
        match type of E1 with _ = (Ok ?x, ?y) => rename y into w3 end.
        assert (Hw1 : w_st wu = w_st w) by congruence.
        assert (Hw3 : w_st w3 = w_st w) by congruence. rewrite Hw1 in E1.
        assert (F : forall (w4 : world) s', w_st w4 = s' -> w_out w4 = w_out w3 ->
           (exists p, at_slot s' parent p) ->
           (forall p, at_slot s' parent p -> derive_export_done c loc w s' w3 a1 (c_handle p)) ->
           (let! p := st_index C P parent in
            write_out 0 (exported_hdr_bytes cf invalid_handle (c_handle p)
                   (to_buf exported_cdi_size (cr_exported a1)) (cr_size a1)) ;;
            ret (N.of_nat exported_hdr_size + cr_size a1)%N) w4 = (r, w') ->
           exists s' w2 cr ph, derive_export_done c loc w s' w2 cr ph /\
                               export_finish w2 s' cr ph r w').
        { intros w4 s' Hs' Ho' [p Hp] Hd H4. mstep H4; [|unfold at_slot, get_ctx in *; congruence].
          exists s', w3, a1, (c_handle c0). split; [apply Hd; rewrite <- Hs'; exact G0|].
          unfold export_finish. mstep H4.
          - apply write_out_inv in E2 as (Hs & _ & _ & [(L1 & R & O)|(L1 & R & O)]); [|discriminate].
            mstep H4. rewrite Ho' in *. split; [congruence|]. left; auto.
          - apply write_out_inv in E2 as (Hs & _ & _ & [(L1 & R & O)|(L1 & R & O)]); [discriminate|].
            inversion R; subst. rewrite Ho' in *. split; [congruence|]. right; auto.
          - exfalso; revert E2; apply nocrash_write_out. }
        assert (Hdone : forall s' ph,
           ((df_retain_parent (dc_flags c) || has_children (c_children pc) = true /\
             s' = put_ctx (w_st w) parent a /\ ph = c_handle a)%bool \/
            (df_retain_parent (dc_flags c) = false /\ has_children (c_children pc) = false /\
             destroy_context cf (dc_handle c) (w_st w) loc = Ok s' /\
             exists pd, at_slot s' parent pd /\ ph = c_handle pd)) ->
           derive_export_done c loc w s' w3 a1 ph).
        { intros s' ph Hcase. exists parent, pc, a, a0, ue, wu.
          pose proof (conj Hue Hpu) as Hueid.
          repeat (split; [first [eassumption|reflexivity|congruence]|]). exact Hcase. }
        assert (Hput : (df_retain_parent (dc_flags c) || has_children (c_children pc))%bool = true ->
          forall w4 : world, w_st w4 = w_st w -> w_out w4 = w_out w3 ->
          (st_set C P parent a (InternalError ContextIndexOob) ;;
           let! p := st_index C P parent in
           write_out 0 (exported_hdr_bytes cf invalid_handle (c_handle p)
                  (to_buf exported_cdi_size (cr_exported a1)) (cr_size a1)) ;;
           ret (N.of_nat exported_hdr_size + cr_size a1)%N) w4 = (r, w') ->
          exists s' w2 cr ph, derive_export_done c loc w s' w2 cr ph /\
                               export_finish w2 s' cr ph r w').
        { intros Hc w4 Hw4 Ho4 H4. mstep H4; [|rewrite Hw4 in L; lia].
          lazymatch type of H4 with ?m ?W = _ => refine (F W (w_st W) eq_refl _ _ _ H4) end;
            cbn [w_st w_out]; [exact Ho4| |]; rewrite Hw4.
          - exists a. apply at_put_iff; left; auto.
          - intros p Hp. apply at_put_iff in Hp as [(_ & _ & ->)|[Hne _]]; [|congruence].
            apply Hdone. left; auto. }
        mstep H.
        * apply negb_true_iff in B2. mstep H. mstep H; [|unfold at_slot, get_ctx in *; congruence].
          assert (c0 = pc) by (unfold at_slot, get_ctx in *; congruence). subst c0. mstep H.
          destruct (has_children (c_children pc)) eqn:Hch; cbn [negb] in H.
          -- right; right; right. eapply Hput; [rewrite B2; reflexivity|exact Hw3|reflexivity|exact H].
          -- mstep H. mstep H. mstep H. mstep H.
             ++ mstep H. right; right; right. rewrite Hw3 in E2.
                assert (Hp : exists p, at_slot a2 parent p).
                { apply nth_error_ex. rewrite (destroy_length _ _ _ _ E2). exact Hlt. }
                lazymatch type of H with ?m ?W = _ => refine (F W (w_st W) eq_refl eq_refl Hp _ H) end.
                intros p Hpp. apply Hdone. right. cbn [w_st] in *. eauto 10.
             ++ shx.
             ++ shx.
        * apply negb_false_iff in B2. mstep H. cbn [negb] in H.
          right; right; right. eapply Hput; [rewrite B2; reflexivity|exact Hw3|reflexivity|exact H].
      + (* child *)
        fold (derive_target c loc) in H. unfold derive_child in H.
        mstep H. mstep H; [|shut3|shut3].
        apply ok_or_inv in E0 as [(ch & Hch & E0)|[_ E0]]; [|discriminate]. inversion E0; subst a0; clear E0.
        apply next_inactive_ok in Hch. rewrite K1 in Hch.
        mstep H; [mstep H; shut3|]. apply negb_false_iff in B3. rewrite K1 in B3.
        assert (F : forall h (w4 : world), w_st w4 = w_st w -> w_out w4 = w_out w ->
          ((df_make_default (dc_flags c) = true /\ h = default_handle) \/
           (df_make_default (dc_flags c) = false /\ gen_ok (w_st w) h)) ->
          (no_repeat co -> df_retain_parent (dc_flags c) = true -> h <> default_handle ->
           h <> c_handle a) ->
          (let! pc := st_get C P parent (InternalError ContextIndexOob) in
           let! tmp_child := add_tci_measurement C P co
             (ctx_activate cf (ctx_new cf)
               {| aa_type := c_type pc; aa_locality := derive_target c loc; aa_handle := h;
                 aa_tci_type := dc_tci_type c; aa_parent := parent;
                 aa_x509 := df_allow_x509 (dc_flags c); aa_info := df_internal_info (dc_flags c);
                 aa_dice := df_internal_dice (dc_flags c);
                 aa_export := df_allow_export (dc_flags c) && c_export a;
                 aa_svn := dc_svn c;
                 aa_recursive := df_allow_recursive (dc_flags c) && c_recursive a |})
             (dc_data c) (derive_target c loc) in
           let! tmp_parent := lift (ctx_add_child cf a ch) in
           st_assign C P ch tmp_child ;;
           st_assign C P parent tmp_parent ;;
           let! p := st_index C P parent in
           respond C P (two_handle_resp_bytes cf h (c_handle p))) w4 = (r, w') ->
          (w_st w' = w_st w /\ (forall a, r <> Ok a) /\
           ((df_create_cert (dc_flags c) && df_export_cdi (dc_flags c))%bool = false ->
            w_out w' = w_out w)) \/
          (exists s' bs, derive_child_done c loc (w_st w) s' bs /\ finish w s' bs r w')).
        { clear H. intros h w4 Hs4 Ho4 Hh4 Hnr H.
          mstep H; [|shut3]. assert (c0 = pc) by (unfold at_slot, get_ctx in *; congruence). subst c0.
          mstep H; [|kp E0; shut3|kp E0; shut3]. kp E0.
          apply add_tci_ok in E0 as (_ & _ & d & Hd & Hdl & ->).
          cbn [ctx_activate c_tci tci_cumulative tci_new] in Hd, Hdl. rewrite repeat_length in Hdl.
          mstep H; [|shut3|shut3].
          unfold ctx_add_child in E0. destruct (Nat.leb_spec (max_handles cf) ch) as [|Hchlt]; [discriminate|].
          rewrite children_add_eq in E0. destruct (Nat.ltb_spec ch (max_handles cf)); [|lia].
          cbn [rbind] in E0. inversion E0; subst a0; clear E0.
          pose proof Hch as [(oc & Hoc & Hoci) Hchlow].
          assert (Hne : ch <> parent).
          { intros ->. unfold at_slot in *. rewrite Hpc in Hoc. inversion Hoc; subst. congruence. }
          pose proof (nth_error_lt _ _ _ Hoc) as Hlt2.
          mstep H; [|exfalso; rewrite H0, Hs4 in L; lia].
          mstep H; [|exfalso; cbn [w_st put_ctx set_contexts st_contexts] in L0;
                     rewrite H0, Hs4, length_upd in L0; lia].
          cbn [w_st w_out w_c w_p] in H. rewrite H0, Hs4 in H.
          assert (Hca : c_children a = c_children pc).
          { destruct Htp as [[_ [[_ ->]|(_ & hh & _ & ->)]]|[_ ->]]; reflexivity. }
          assert (Hea : c_export a = c_export pc).
          { destruct Htp as [[_ [[_ ->]|(_ & hh & _ & ->)]]|[_ ->]]; reflexivity. }
          assert (Hra : c_recursive a = c_recursive pc).
          { destruct Htp as [[_ [[_ ->]|(_ & hh & _ & ->)]]|[_ ->]]; reflexivity. }
          mstep H.
          2:{ exfalso. cbn [w_st] in G1. unfold get_ctx, put_ctx, set_contexts in G1.
              cbn [st_contexts] in G1. rewrite nth_error_upd_eq in G1; [discriminate|].
              rewrite length_upd. lia. }
          cbn [w_st] in G1. apply (proj1 (get_ctx_at _ _ _)) in G1.
          apply at_put_iff in G1 as [(_ & _ & ->)|[X _]]; [|congruence].
          apply respond_inv in H. right. eexists; eexists; split.
          - exists parent, pc, a, ch, h, d. rewrite <- Hca.
            repeat (split; [first [eassumption|reflexivity]|]).
            reflexivity.
          - eapply responded_finish in H; [exact H|cbn [w_out]; congruence|].
            cbn [w_st]. unfold child_context. rewrite <- Hea, <- Hra. reflexivity. }
        mstep H.
        * mstep H. eapply F in H; [|assumption|assumption|left; auto|congruence].
          destruct H as [H|H]; [left; rewrite B2 in H; exact H|right; right; left; exact H].
        * mstep H; [|kp E0; shut3|kp E0; shut3]. kp E0. pose proof E0 as E0'. apply generate_new_handle_ok in E0.
          rewrite K1 in E0.
          eapply F in H; [|congruence|congruence|right; auto|].
          2:{ intros NR Hre Hnd. destruct Hgen as [->|[X|(wz & Hwz)]]; [exact Hnd|congruence|].
              eapply two_draws; [exact NR|exact Hwz|exact E0'|reflexivity]. }
          destruct H as [H|H]; [left; rewrite B2 in H; exact H|right; right; left; exact H].
  Qed.
End Effects.
