(** PanicProofs.v -- the DPE of the panic check goes through three phases. *)
From Verif Require Import Base Errors Types StateOps Env Wire Instance Commands Response X509 X509Cert PanicCheck Lib Spec Exec Effects Forest
  History WireSpec Reach Steps Contract Responses Execute X509Run X509Sane X509Total X509Gen X509Cmd Walk Measure Reasons Explain CommandSpecs Ledger Props_Tree Props_Avail.
Open Scope N_scope.
Open Scope dpe_scope.

(** ** Vocabulary *)

(** Before the first context, with the one context (of this locality), and after it was
    destroyed. *)
Inductive phase := Fresh | Live (loc : N) | Gone.

(** Apart from the first slot in the phase [Live] no slot is in use; that one holds an
    unmeasured root context with the default handle. *)
Definition in_phase (cf : config) (ph : phase) (s : state) : Prop :=
  st_support s = 0 /\ st_init s = match ph with Fresh => false | _ => true end /\
  match ph with
  | Live l => (exists c, at_slot s 0 c /\ c_state c = Active /\ c_handle c = repeat 0 16 /\ c_locality c = l /\ c_type c = Normal /\
                 c_children c = 0 /\ tci_cumulative (c_tci c) = repeat 0 (tci_size cf) /\ tci_current (c_tci c) = repeat 0 (tci_size cf)) /\
              forall i c, at_slot s (S i) c -> c_state c = Inactive
  | _ => forall i c, at_slot s i c -> c_state c = Inactive
  end.

(** The phase after a successful command; [None]: the command is refused. *)
Definition next_phase (ph : phase) (loc : N) (cmd : command) : option phase :=
  match cmd, ph with
  | CmdGetProfile, _ => Some ph
  | CmdInitCtx f, Fresh => if N.testbit f 30 && negb (N.testbit f 31) then Some (Live loc) else None
  | CmdDestroyCtx h, Live l => if list_eq_dec N.eq_dec h (repeat 0 16) then if N.eqb loc l then Some Gone else None else None
  | _, _ => None
  end.

(** ** Commands that need hashing or support always fail *)
Section Fail.
  Variable cf : config.
  Hypothesis Hcf : config_ok cf.
  Notation co := dummy_crypto.
  Notation po := dummy_platform.
  Notation gen := (x509_gen cf unit unit co po).
  Notation exec := (exec_command cf unit unit co po gen).
  Notation w0 := (world unit unit).

  Lemma no_rand (w : w0) n w' : generate_new_handle unit unit co w <> (Ok n, w').
  Proof. unfold generate_new_handle. cbn [gen_handle_loop max_new_handle_attempts]. unfold bind, crypto. cbn [co_rand_bytes dummy_crypto]. discriminate. Qed.
  Lemma no_hash l (w : w0) d w' : hash_all unit unit co l w <> (Ok d, w').
  Proof. unfold hash_all, bind, crypto. cbn [co_hasher co_hash_initialize dummy_crypto]. discriminate. Qed.
  Lemma no_cmh i (w : w0) d w' : compute_measurement_hash cf unit unit co po i w <> (Ok d, w').
  Proof. unfold compute_measurement_hash, bind at 1 2, crypto at 1 2. cbn [co_hasher co_hash_initialize dummy_crypto]. discriminate. Qed.
  Lemma no_sign i l x (w : w0) d w' : do_sign cf unit unit co po i l x w <> (Ok d, w').
  Proof. unfold do_sign. intros H. apply bind_inv in H as [(d' & w1 & E & _)|[(e & _ & X)|(e & _ & X)]]; [|discriminate..]. destruct (no_cmh _ _ _ _ E). Qed.

  Definition stays (w : w0) (r : result N) (w' : w0) : Prop := (forall n, r <> Ok n) /\ w_st w' = w_st w.

  Lemma stays_fail e (w : w0) r w' : @fail unit unit N e w = (r, w') -> stays w r w'.
  Proof. intros [= <- <-]. split; [discriminate|reflexivity]. Qed.

  Lemma chain_stays off size loc w r w' : exec (CmdGetCertificateChain off size) loc w = (r, w') -> stays w r w'.
  Proof.
    cbn [exec_command]. unfold exec_get_chain. destruct (N.ltb _ _); [apply stays_fail|].
    unfold bind, cert_chain_call. cbn [po_certificate_chain dummy_platform]. intros [= <- <-]. split; [discriminate|reflexivity].
  Qed.
  Lemma rotate_stays h f loc w r w' : st_support (w_st w) = 0 -> exec (CmdRotateCtx h f) loc w = (r, w') -> stays w r w'.
  Proof.
    intros S. cbn [exec_command]. unfold exec_rotate. rewrite bind_get_st, S. change (sup_rotate 0) with false. cbn [negb]. apply stays_fail.
  Qed.
  Lemma sign_stays c loc w r w' : exec (CmdSign c) loc w = (r, w') -> stays w r w'.
  Proof.
    cbn [exec_command]. intros H. apply exec_sign_inv in H as [[K N]|(s' & bs & (h & l & d & i & ctx & g & sb & nh & w1 & _ & _ & _ & _ & Hs & _) & _)].
    - destruct K. split; [exact N|assumption].
    - destruct (no_sign _ _ _ _ _ _ Hs).
  Qed.
  Lemma certify_stays c loc w r w' : exec (CmdCertifyKey c) loc w = (r, w') -> stays w r w'.
  Proof.
    intros H. cbn [exec_command] in H.
    apply exec_certify_inv in H as [[K N]|(s' & w1 & cr & nh & (i & ctx & Hf & Hrun & Hr) & K & H)]; [split; [exact N|exact K]|].
    exfalso. rewrite run_create in Hrun. destruct Hf as (Hf & _).
    destruct (created_key cf co po _ _ _ _ _ _ _ Hrun Hf) as (d & w2 & E & _). destruct (no_cmh _ _ _ _ E).
  Qed.
  Lemma no_hashed l d : ~ hashed unit unit co l d.
  Proof. intros (w & dg & w' & E & _). destruct (no_hash _ _ _ _ E). Qed.
  Lemma update_stays u loc w r w' : exec (CmdUpdateContextMeasurement u) loc w = (r, w') -> stays w r w'.
  Proof.
    cbn [exec_command]. intros H. apply exec_update_inv in H as [[K N]|(s1 & p & c & pc & pc' & cc & cc' & (_ & _ & _ & _ & _ & (d & X & _) & _) & _)].
    - destruct K. split; [exact N|assumption].
    - destruct (no_hashed _ _ X).
  Qed.
  Lemma derive_stays d loc w r w' : exec (CmdDeriveContext d) loc w = (r, w') -> stays w r w'.
  Proof.
    cbn [exec_command]. intros H. apply exec_derive_inv in H as [(K & N & _)|[(s' & bs & X & _)|[(s' & bs & X & _)|(s' & w2 & cr & ph & X & _)]]].
    - split; [exact N|exact K].
    - destruct X as (p & pc & pc' & dg & _ & _ & _ & _ & X & _). destruct (no_hashed _ _ X).
    - destruct X as (p & pc & pc' & ch & h & dg & _ & _ & _ & _ & _ & _ & _ & _ & _ & X & _). destruct (no_hashed _ _ X).
    - destruct X as (p & pc & pc' & u & ueid & w1 & (_ & Hf & _) & _ & _ & _ & _ & _ & E1 & _ & _ & X & _).
      rewrite run_create in X. rewrite <- E1 in Hf. destruct (created_key cf co po _ _ _ _ _ _ _ X Hf) as (dg & w3 & E & _). destruct (no_cmh _ _ _ _ E).
  Qed.

  (** ** Phases *)
  Definition dummy_env : env := {| e_C := unit; e_P := unit; e_crypto := co; e_platform := po; e_cert := gen |}.
  Lemma dummy_chain p : chain_stops po (fuel cf) 0 (repeat 0 2048) p.
  Proof. destruct (fuel cf) eqn:E; [exfalso; destruct Hcf; lia|]. eapply cs_end. reflexivity. Qed.

  Lemma fresh_start : in_phase cf Fresh (state_new cf 0 (bit 15)).
  Proof.
    split; [vm_compute; reflexivity|]. split; [reflexivity|]. intros i c H. apply new_slot in H as [_ ->]. reflexivity.
  Qed.

  Lemma slot_zero s : wf cf s -> exists c, at_slot s 0 c.
  Proof.
    intros W. pose proof (fo_size _ _ (wf_forest _ _ W)) as L. unfold at_slot, get_ctx. destruct (st_contexts s) as [|c l] eqn:E; [|exists c; reflexivity].
    cbn [length] in L. destruct Hcf. lia.
  Qed.

  Lemma named_live ph s h loc i : in_phase cf ph s -> names s h loc i -> exists l, ph = Live l /\ i = 0%nat /\ h = repeat 0 16 /\ loc = l.
  Proof.
    intros (_ & _ & H) (c & A & B & D & E). destruct ph as [|l|]; [rewrite (H _ _ A) in B; discriminate| |rewrite (H _ _ A) in B; discriminate].
    destruct H as ((c0 & A0 & _ & Hh & Hl & _) & H). destruct i as [|i]; [|rewrite (H _ _ A) in B; discriminate].
    assert (c = c0) by congruence. subst c0. exists l. repeat split; congruence.
  Qed.

  Theorem phase_step ph cmd loc (w : w0) r w' :
    wf cf (w_st w) -> in_phase cf ph (w_st w) -> (N.to_nat (wire_size cf cmd) <= length (w_out w))%nat ->
    exec cmd loc w = (r, w') ->
    match next_phase ph loc cmd with
    | Some ph' => (exists n, r = Ok n) /\ in_phase cf ph' (w_st w')
    | None => (exists e, r = Err e) /\ w_st w' = w_st w
    end.
  Proof.
    intros W HP HS H.
    assert (KS : keeps_size gen).
    { intros ? ? ? ? ? ? ? ? ? ? ? X. apply (x509_sane cf co po _ _ _ _ _ _ _ _ _ _ _ X). }
    assert (NC : forall k, r <> Crash k).
    { intros k. eapply (C21_commands cf dummy_env cmd loc w r w' Hcf W); [| | |exact H].
      - exact KS.
      - exact (x509_returns cf Hcf co po dummy_chain).
      - exact dummy_chain. }
    assert (ST : stays w r w' -> (exists e, r = Err e) /\ w_st w' = w_st w).
    { intros [N K]. split; [|exact K]. destruct r as [n|e|k]; [destruct (N n eq_refl)|eauto|destruct (NC k eq_refl)]. }
    destruct cmd as [|f|d|c|c|h f|h|o sz|u].
    - cbn [exec_command next_phase] in *. change (N.to_nat (wire_size cf CmdGetProfile)) with 32%nat in HS.
      unfold exec_get_profile, get_profile in H. rewrite bind_get_st in H. unfold bind at 1 2 3 in H. unfold platform in H. cbn [po_vendor_id po_vendor_sku dummy_platform] in H.
      cbn [ret w_st w_c w_p w_out] in H. apply respond_inv in H as [K [(_ & -> & _)|(L & _)]].
      + split; [eauto|]. cbn [w_st] in K. rewrite K. exact HP.
      + exfalso. unfold get_profile_resp_bytes, ok_hdr_bytes, response_hdr_bytes in L. rewrite !app_length, !length_le_bytes in L. cbn [w_out] in L. lia.
    - pose proof (command_explained cf Hcf _ _ co po gen KS (CmdInitCtx f) loc w _ _ W H) as X. destruct HP as (HS0 & HI & HP).
      change (N.to_nat (wire_size cf (CmdInitCtx f))) with 28%nat in HS.
      cbn [exec_command] in H. apply exec_init_inv in H as [[K N]|(s' & bs & (idx & h & Hf & Eb & D) & F)].
      + destruct r as [n|e|k]; [destruct (N n eq_refl)| |destruct (NC k eq_refl)]. destruct K as [K _]. cbn [next_phase].
        assert (Q : (exists e0, @Err BinNums.N e = Err e0) /\ w_st w' = w_st w) by eauto.
        destruct ph as [|l|]; [|exact Q..].
        destruct (N.testbit f 30) eqn:B30; cbn [andb]; [|exact Q]. destruct (N.testbit f 31) eqn:B31; cbn [negb]; [exact Q|]. exfalso.
        destruct (slot_zero _ W) as (c0 & A0). unfold explained, refusal in X. rewrite B30, B31 in X.
        destruct X as [[_ X]|[[_ [[_ X]|[X _]]]|[[_ X]|[[_ X]|[X _]]]]]; try discriminate.
        * cbn [fixed_size] in X. lia.
        * congruence.
        * apply (X _ _ A0). exact (HP _ _ A0).
      + destruct D as [(B30 & B31 & I & -> & Es)|(B31 & _ & B & _)].
        2:{ exfalso. rewrite HS0 in B. discriminate. }
        unfold if_default, if_simulation in B30, B31. rewrite contains_bit in B30, B31.
        destruct ph as [|l|]; [|congruence..]. cbn [next_phase]. rewrite B30, B31. cbn [andb negb].
        destruct F as [EW [(_ & -> & _)|(L & _)]].
        2:{ exfalso. rewrite Eb, length_new in L by reflexivity. lia. }
        split; [eauto|]. destruct (slot_zero _ W) as (c0 & A0).
        assert (idx = 0%nat) as ->.
        { destruct Hf as [_ Hf]. destruct idx as [|j]; [reflexivity|]. exfalso. apply (Hf 0%nat); [lia|]. exists c0. split; [exact A0|]. exact (HP _ _ A0). }
        rewrite EW, Es. split; [exact HS0|]. split; [reflexivity|]. split.
        * exists (init_context cf Normal loc default_handle true). split; [eapply at_put_same; exact A0|]. repeat split.
        * intros i c Hc. unfold at_slot, get_ctx, put_ctx in Hc. cbn [st_contexts set_contexts set_init] in Hc.
          apply (HP (S i) c). unfold at_slot, get_ctx in *. destruct (st_contexts (w_st w)); [destruct i; discriminate|exact Hc].
    - apply ST, (derive_stays d loc), H.
    - apply ST, (certify_stays c loc), H.
    - apply ST, (sign_stays c loc), H.
    - apply ST, (rotate_stays h f loc); [apply HP|exact H].
    - change (N.to_nat (wire_size cf (CmdDestroyCtx h))) with 12%nat in HS.
      destruct (get_active_context_pos (w_st w) h loc) as [t|e|k] eqn:EL; pose proof (lookup_spec (w_st w) h loc) as LS; rewrite EL in LS.
      + destruct (named_live _ _ _ _ _ HP (proj1 LS)) as (l & -> & -> & -> & ->). cbn [next_phase].
        destruct (list_eq_dec N.eq_dec (repeat 0 16) (repeat 0 16)) as [_|X]; [|destruct (X eq_refl)]. rewrite N.eqb_refl.
        destruct (C11_destroy_succeeds cf dummy_env _ _ w 0 Hcf W LS HS) as (w1 & E).
        change (exec_command cf _ _ _ _ _ _ _ _) with (exec (CmdDestroyCtx (repeat 0 16)) l w) in E. rewrite H in E. apply pair_equal_spec in E as [-> Ew]. subst w1.
        split; [eauto|].
        assert (EX : executes cf dummy_env (CmdDestroyCtx (repeat 0 16)) l (w_st w) (Ok 12) (w_st w')).
        { destruct w as [s0 c0 p0 o0], w' as [s1 c1 p1 o1]. exists c0, p0, o0, c1, p1, o1. exact H. }
        destruct (C11_destroy_exact cf dummy_env _ _ _ _ _ Hcf W EX) as (t & Ht & (_ & _ & G1 & _ & G2 & _) & GL & Hx).
        destruct HP as (S0 & I0 & (c0 & A0 & _) & HI).
        split; [rewrite G1; exact S0|]. split; [rewrite G2; exact I0|]. intros i c Hc.
        assert (exists c1, at_slot (w_st w) i c1) as (c1 & A1).
        { unfold at_slot, get_ctx in *. destruct (nth_error (st_contexts (w_st w)) i) as [c1|] eqn:E1; [eauto|]. exfalso.
          apply nth_error_None in E1. apply nth_error_lt in Hc. lia. }
        destruct (Hx _ _ A1) as (c' & A' & D1 & D2). assert (c' = c) by congruence. subst c'.
        rewrite (first_slot_det _ _ _ Ht LS) in *. destruct i as [|i]; [apply D1, doomed_target|].
        assert (DS : {c_state c = Inactive} + {c_state c <> Inactive}) by decide equality.
        destruct DS as [DS|DS]; [exact DS|]. exfalso. apply DS.
        assert (ND : ~ doomed (w_st w) 0 (S i)) by (intros D; apply DS, (D1 D)).
        destruct (D2 ND) as [SB _]. transitivity (c_state c1); [apply SB|exact (HI _ _ A1)].
      + assert (NX : next_phase ph loc (CmdDestroyCtx h) = None).
        { cbn [next_phase]. destruct ph as [|l|]; try reflexivity. destruct (list_eq_dec N.eq_dec h (repeat 0 16)) as [->|]; [|reflexivity].
          destruct (N.eqb_spec loc l) as [->|]; [|reflexivity]. exfalso. destruct HP as (_ & _ & (c0 & A0 & S0 & H0 & L0 & _) & _).
          assert (NM : names (w_st w) (repeat 0 16) l 0) by (exists c0; auto).
          destruct e; try contradiction; [exact (proj2 LS 0%nat NM)|]. exact (LS _ _ A0 S0 L0). }
        rewrite NX. cbn [exec_command] in H. unfold exec_destroy in H. rewrite bind_get_st in H.
        assert (ED : destroy_context cf h (w_st w) loc = Err e).
        { unfold destroy_context, get_active_context_and_idx. rewrite EL. reflexivity. }
        rewrite ED in H. injection H as <- <-. eauto.
      + destruct LS.
    - apply ST, (chain_stays o sz loc), H.
    - apply ST, (update_stays u loc), H.
  Qed.
End Fail.
