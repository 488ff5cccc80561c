(** TreeProofs.v -- consequences of well-formedness for whole trees, counting,
    capacity and the history of initialisations (C05-C09, C18). *)
From Verif Require Import Base Errors Types StateOps Env Wire Instance Commands Lib Spec Exec
  Effects Forest DestroyProofs History Contract Steps Reach Denials CommandSpecs.
Local Open Scope nat_scope.
Open Scope dpe_scope.

(** ** Trees *)
Lemma path_inherits cf s i l :
  wf cf s -> path s i l -> forall c, at_slot s i c -> forall a ca, In a l -> at_slot s a ca -> inherits ca c.
Proof.
  intros W. induction 1 as [i c0 Hc0 Hl Hp|i c0 l Hc0 Hl Hp Hpath IH]; intros c Hc a ca Ha Hca.
  - destruct Ha as [<-|[]]. rewrite (at_det _ _ _ _ Hc Hca). unfold inherits; auto.
  - destruct Ha as [<-|Ha].
    + rewrite (at_det _ _ _ _ Hc Hca). unfold inherits; auto.
    + rewrite (at_det _ _ _ _ Hc Hc0) in *.
      destruct (path_live _ _ _ Hpath (c_parent c0)) as (p & Hp' & _).
      { destruct (path_head _ _ _ Hpath) as (l' & ->). left; reflexivity. }
      destruct (IH p Hp' a ca Ha Hca) as (A1 & A2 & A3 & A4).
      destruct (wf_inherits _ _ W i c0 (c_parent c0) p Hc0 Hl eq_refl Hp') as (B1 & B2 & B3 & B4).
      unfold inherits. repeat split; auto. congruence.
Qed.

Lemma path_last_root s i l : path s i l ->
  exists r c, In r l /\ at_slot s r c /\ live c /\ c_parent c = ROOT.
Proof.
  induction 1 as [i c Hc Hl Hp|i c l Hc Hl Hp Hpath (r & d & Hr & Hd & K)].
  - exists i, c. repeat split; auto. left; reflexivity.
  - exists r, d. split; [right; exact Hr|auto].
Qed.

(** Any two normal contexts are below the same root. *)
Lemma one_normal_tree cf s i j c d :
  wf cf s -> at_slot s i c -> at_slot s j d -> live c -> live d -> c_type c = Normal -> c_type d = Normal ->
  exists r rc, at_slot s r rc /\ c_parent rc = ROOT /\ below s r i /\ below s r j.
Proof.
  intros W Hc Hd Lc Ld Tc Td.
  destruct (fo_acyclic _ _ (wf_forest _ _ W) i) as (li & Hli); [exists c; auto|].
  destruct (fo_acyclic _ _ (wf_forest _ _ W) j) as (lj & Hlj); [exists d; auto|].
  destruct (path_last_root _ _ _ Hli) as (r & rc & Hr & Hrc & Lrc & Prc).
  destruct (path_last_root _ _ _ Hlj) as (q & qc & Hq & Hqc & Lqc & Pqc).
  destruct (path_inherits _ _ _ _ W Hli c Hc r rc Hr Hrc) as (T1 & _).
  destruct (path_inherits _ _ _ _ W Hlj d Hd q qc Hq Hqc) as (T2 & _).
  assert (r = q). { apply (wf_one_normal_root _ _ W r q rc qc); auto; congruence. }
  subst q. exists r, rc. repeat split; auto; [exists li|exists lj]; auto.
Qed.

(** ** Counting *)
Lemma live_count_le cf s : length (st_contexts s) = max_handles cf -> live_count s <= max_handles cf.
Proof. intros <-. unfold live_count. 
  induction (st_contexts s) as [|c l IH]; cbn; [lia|]. destruct (is_live c); cbn; lia. Qed.

Lemma is_live_iff c : is_live c = true <-> live c.
Proof. unfold is_live, live. destruct (c_state c); intuition congruence. Qed.

Lemma count_upd (f : context -> bool) l : forall i c c', nth_error l i = Some c ->
  length (filter f (upd l i c')) + (if f c then 1 else 0) = length (filter f l) + (if f c' then 1 else 0).
Proof.
  induction l as [|x l IH]; intros [|i] c c' H; cbn in H; try discriminate.
  - inversion H; subst. cbn. destruct (f c), (f c'); cbn; lia.
  - specialize (IH i c c' H). cbn. destruct (f x); cbn; lia.
Qed.

Lemma live_count_put s i c c' : at_slot s i c ->
  live_count (put_ctx s i c') + (if is_live c then 1 else 0) = live_count s + (if is_live c' then 1 else 0).
Proof. intros H. apply (count_upd is_live (st_contexts s) i c c' H). Qed.

(** Slot-wise comparison of two context lists. *)
Lemma count_same (l l' : list context) :
  length l' = length l ->
  (forall i c c', nth_error l i = Some c -> nth_error l' i = Some c' -> is_live c' = is_live c) ->
  length (filter is_live l') = length (filter is_live l).
Proof.
  revert l'. induction l as [|x l IH]; intros [|y l'] HL H; cbn in *; try lia.
  pose proof (H 0 x y eq_refl eq_refl) as E. rewrite E.
  assert (K : length (filter is_live l') = length (filter is_live l)).
  { apply IH; [lia|]. intros i c c' Hc Hc'. apply (H (S i) c c'); assumption. }
  destruct (is_live x); cbn; lia.
Qed.

Lemma count_one (l l' : list context) k : 
  length l' = length l ->
  (forall i c c', i <> k -> nth_error l i = Some c -> nth_error l' i = Some c' -> is_live c' = is_live c) ->
  (exists c, nth_error l k = Some c /\ is_live c = false) ->
  (exists c, nth_error l' k = Some c /\ is_live c = true) ->
  length (filter is_live l') = S (length (filter is_live l)).
Proof.
  revert l' k. induction l as [|x l IH]; intros [|y l'] k HL H (c & Hc & Lc) (d & Hd & Ld); cbn in *; try lia;
    [destruct k; discriminate|].
  destruct k as [|k]; cbn in Hc, Hd.
  - inversion Hc; inversion Hd; subst. rewrite Lc, Ld. cbn. f_equal. apply count_same; [lia|].
    intros i a b Ha Hb. apply (H (S i) a b); auto.
  - pose proof (H 0 x y ltac:(lia) eq_refl eq_refl) as E. rewrite E.
    assert (K : length (filter is_live l') = S (length (filter is_live l))).
    { apply (IH l' k); [lia| |eauto|eauto]. intros i a b Hi Ha Hb. apply (H (S i) a b); auto. }
    destruct (is_live x); cbn; lia.
Qed.

(** Removing a set [D] of live slots removes that many contexts. *)
Fixpoint count_slots (f : nat -> bool) (n : nat) : nat :=
  match n with O => 0 | S n' => (if f n' then 1 else 0) + count_slots f n' end.

Lemma count_app_last (l : list context) x : length (filter is_live (l ++ [x])) = length (filter is_live l) + if is_live x then 1 else 0.
Proof. rewrite filter_app, app_length. cbn. destruct (is_live x); reflexivity. Qed.

Lemma count_removed (f : nat -> bool) (l l' : list context) :
  length l' = length l ->
  (forall i c c', nth_error l i = Some c -> nth_error l' i = Some c' ->
     is_live c' = if f i then false else is_live c) ->
  (forall i c, nth_error l i = Some c -> f i = true -> is_live c = true) ->
  length (filter is_live l') + count_slots f (length l) = length (filter is_live l).
Proof.
  revert l'. induction l as [|x l IH] using rev_ind; intros l' HL H Hf.
  - destruct l'; [reflexivity|discriminate].
  - rewrite app_length in HL. cbn in HL. destruct l' as [|y l' _] using rev_ind; [cbn in HL; lia|].
    rewrite app_length in HL. cbn in HL. assert (HL' : length l' = length l) by lia.
    rewrite app_length. cbn [length]. rewrite Nat.add_1_r. cbn [count_slots].
    rewrite !count_app_last.
    assert (K : length (filter is_live l') + count_slots f (length l) = length (filter is_live l)).
    { apply IH; [exact HL'| |].
      - intros i c c' Hc Hc'. apply (H i c c'); rewrite nth_error_app1; auto; eapply nth_error_lt; eauto.
      - intros i c Hc. apply Hf. rewrite nth_error_app1; auto. eapply nth_error_lt; eauto. }
    assert (Hx : nth_error (l ++ [x]) (length l) = Some x) by (rewrite nth_error_app2, Nat.sub_diag; auto).
    assert (Hy : nth_error (l' ++ [y]) (length l) = Some y) by (rewrite <- HL', nth_error_app2, Nat.sub_diag; auto).
    pose proof (H _ _ _ Hx Hy) as E. pose proof (Hf _ _ Hx) as E2. rewrite E.
    destruct (f (length l)); [rewrite E2 by reflexivity; lia|]. destruct (is_live x); lia.
Qed.

(** ** Initialisation *)
Section Init.
  Variable cf : config.
  Hypothesis Hcf : config_ok cf.

  (** Creating an instance with AUTO_INIT succeeds only on an uninitialised state. *)
  Lemma dpe_new_ok e s s' :
    creates cf e s (Ok tt) s' -> N.testbit (st_support s) AUTO_INIT = true ->
    st_init s = false /\ st_init s' = true.
  Proof.
    intros (c & p & o & c' & p' & o' & H) Ha. unfold dpe_new in H. mstep H. cbn [w_st] in H.
    unfold sup_auto_init in H. rewrite contains_bit in H. change 29%N with AUTO_INIT in H. rewrite Ha in H.
    apply bind_inv in H as [(a & w1 & E & H)|[(er & _ & X)|(k & _ & X)]]; try discriminate.
    pose proof (keeps_platform _ _ _ _ E) as [K _]. cbn [w_st] in K.
    apply bind_inv in H as [(x & w2 & E2 & H)|[(er & _ & X)|(k & _ & X)]]; try discriminate.
    apply ret_inv in H as [_ H]. subst w2. unfold with_out in E2.
    destruct (exec_init cf (e_C e) (e_P e) (e_crypto e) (bit 30) (a mod 2 ^ 32) _) as [[n|er|k] w3] eqn:EX; try discriminate.
    inversion E2; subst. clear E2.
    apply exec_init_inv in EX as [[_ N]|(s1 & bs & (idx & h & _ & _ & D) & Hs & _)]; [exfalso; eapply N; reflexivity|].
    cbn [w_st] in *. rewrite ?K in D. destruct D as [(_ & _ & I & _ & ->)|(S & _)].
    - split; [exact I|]. rewrite Hs. reflexivity.
    - unfold if_simulation in S. rewrite contains_bit in S. discriminate.
  Qed.

  Lemma init_command_ok e f loc s n s' :
    wf cf s -> executes cf e (CmdInitCtx f) loc s (Ok n) s' -> N.testbit f 30 = true ->
    st_init s = false /\ st_init s' = true.
  Proof.
    intros W (c & p & o & c' & p' & o' & H) B. apply command_effect in H; [|exact Hcf|exact W].
    destruct H as [(m & _ & He)|[N _]]; [|exfalso; eapply N; reflexivity]. cbn [effect w_st] in He.
    destruct He as (k & h & _ & _ & H30 & _ & (_ & _ & _ & _ & _ & I) & _). rewrite B, orb_true_r in I.
    split; [apply H30; exact B|exact I].
  Qed.

  Theorem initialised_once E G l s :
    history cf E G l s ->
    length (filter (initialises (st_support s)) l) <= 1 /\
    (length (filter (initialises (st_support s)) l) = 1 -> st_init s = true).
  Proof.
    induction 1 as [sup fl Hs|l s e r s' Hh IH He H HA|sup fl e ty m r s' He Hs Hty Hm H
                   |l s e cmd loc r s' Hh IH He Wc Wl HA H].
    - cbn. lia.
    - assert (S : st_support s' = st_support s /\ (st_init s = true -> st_init s' = true)).
      { destruct H as (c & p & out & c' & p' & out' & H). apply (dpe_new_changes cf e anywhere) in H.
        - apply changes_globals in H. cbn [w_st] in H. tauto.
        - intros. apply any_allowed. }
      destruct S as [S1 S2]. rewrite S1. cbn [filter]. destruct r as [[]|er|k]; cbn [initialises];
        try (destruct IH; split; auto; fail).
      destruct (N.testbit (st_support s) AUTO_INIT) eqn:A; [|destruct IH; split; auto].
      destruct (dpe_new_ok _ _ _ H A) as [I1 I2]. cbn [length].
      destruct IH as [IH1 IH2]. destruct (length (filter (initialises (st_support s)) l)) as [|[|n]]; [|exfalso|lia].
      + split; [lia|auto].
      + specialize (IH2 eq_refl). congruence.
    - cbn [filter]. destruct r as [[]|er|k]; cbn [initialises length]; try lia.
      split; [lia|]. intros _. destruct H as (c & p & out & c' & p' & out' & H).
      apply (dpe_new_auto_init_fresh cf e Hcf sup fl) in H; [|reflexivity]. cbn [w_st] in H.
      destruct H as [[_ X]|(a & q & _ & _ & H)]; [congruence|]. cbv zeta in H.
      destruct H as [[_ ->]|[_ (d & _ & _ & ->)]]; reflexivity.
    - pose proof (history_wf cf Hcf _ _ _ _ Hh) as W.
      assert (S : st_support s' = st_support s /\ (st_init s = true -> st_init s' = true)).
      { pose proof H as H2. apply (executes_changes cf e Hcf anywhere) in H2; auto using any_allowed.
        apply changes_globals in H2. tauto. }
      destruct S as [S1 S2]. rewrite S1. cbn [filter].
      destruct (initialises (st_support s) (EvCommand cmd loc r)) eqn:IN; [|destruct IH; split; auto].
      cbn [initialises] in IN. destruct cmd; try discriminate. destruct r as [n|er|k]; try discriminate.
      destruct (init_command_ok _ _ _ _ _ _ W H IN) as [I1 I2]. cbn [length].
      destruct IH as [IH1 IH2]. destruct (length (filter (initialises (st_support s)) l)) as [|[|m]]; [|exfalso|lia].
      + split; [lia|auto].
      + specialize (IH2 eq_refl). congruence.
  Qed.

  (** Initialisation is never forgotten. *)
  Lemma init_kept e cmd loc s r s' :
    wf cf s -> command_wf cf cmd -> u32 loc -> executes cf e cmd loc s r s' ->
    st_init s = true -> st_init s' = true.
  Proof.
    intros W Wc Wl H. apply (executes_changes cf e Hcf anywhere) in H; auto using any_allowed.
    apply changes_globals in H. tauto.
  Qed.
End Init.

(** ** Capacity *)
Section Capacity.
  Variable cf : config.
  Hypothesis Hcf : config_ok cf.
  Variables C P : Type.
  Variable co : crypto_ops C.
  Variable po : platform_ops P.
  Variable cg : cert_kind -> cert_args -> nat -> state -> C -> P -> bytes ->
                result cert_result * C * P * bytes.

  Lemma hash_err l w e w' : hash_all C P co l w = (Err e, w') -> exists ce, e = CryptoErr ce.
  Proof.
    assert (K : forall A (f : C -> (A + crypto_error) * C) (u u' : world C P) er,
              crypto f u = (Err er, u') -> exists ce, er = CryptoErr ce).
    { intros A f u u' er. unfold crypto. destruct (f (w_c u)) as [[a|ce] c']; intros X; inversion X; eauto. }
    assert (U : forall l u u' er, hash_updates C P co l u = (Err er, u') -> exists ce, er = CryptoErr ce).
    { clear -K. induction l as [|b l IH]; cbn [hash_updates]; intros u u' er H; [discriminate|].
      apply bind_inv in H as [(a & w1 & E & H)|[(x & E & X)|(k & E & X)]]; [eauto| |discriminate].
      inversion X; subst. eauto. }
    unfold hash_all. intros H.
    apply bind_inv in H as [(a & w1 & E & H)|[(x & E & X)|(k & E & X)]]; [|inversion X; subst; eauto|discriminate].
    apply bind_inv in H as [(a1 & w2 & E1 & H)|[(x & E1 & X)|(k & E1 & X)]]; [|inversion X; subst; eauto|discriminate].
    apply bind_inv in H as [(a2 & w3 & E2 & H)|[(x & E2 & X)|(k & E2 & X)]]; [|inversion X; subst; eauto|discriminate].
    eauto.
  Qed.

  Lemma gen_err w e w' : generate_new_handle C P co w = (Err e, w') -> e <> MaxTcis.
  Proof.
    unfold generate_new_handle. revert w e w'. induction max_new_handle_attempts as [|n IH];
      cbn [gen_handle_loop]; intros w e w' H; [inversion H; subst; discriminate|].
    apply bind_inv in H as [(a & w1 & E & H)|[(x & E & X)|(k & E & X)]]; [| |discriminate].
    - mstep H. destruct (_ && _)%bool; [discriminate|eauto].
    - inversion X; subst. unfold crypto in E. destruct (co_rand_bytes co handle_size (w_c w)) as [[b|ce] c'];
        inversion E; subst; discriminate.
  Qed.

  Lemma respond_err bs (w : world C P) e w' : respond C P bs w = (Err e, w') -> e = InvalidResponseBuf.
  Proof. intros H. apply respond_inv in H as [_ [(_ & X & _)|(_ & X & _)]]; inversion X; reflexivity. Qed.

  Lemma init_capacity f loc w r w' :
    exec_command cf C P co po cg (CmdInitCtx f) loc w = (r, w') ->
    (N.testbit f 30 = true /\ N.testbit f 31 = false /\ st_init (w_st w) = false) \/
    (N.testbit f 30 = false /\ N.testbit f 31 = true /\ supports (w_st w) SIMULATION) ->
    (r = Err MaxTcis <-> forall i c, at_slot (w_st w) i c -> live c).
  Proof.
    intros H Ok1. cbn [exec_command] in H. unfold exec_init in H. mstep H.
    unfold if_default, if_simulation, sup_simulation in H. rewrite !contains_bit in H.
    unfold supports, SIMULATION in Ok1.
    assert (E1 : ((N.testbit f 30 && st_init (w_st w)) || (N.testbit f 31 && negb (N.testbit (st_support (w_st w)) 31)))%bool = false)
      by (destruct Ok1 as [(-> & -> & ->)|(-> & -> & ->)]; reflexivity).
    assert (E2 : xorb (N.testbit f 30) (N.testbit f 31) = true)
      by (destruct Ok1 as [(-> & -> & _)|(-> & -> & _)]; reflexivity).
    rewrite E1, E2 in H. cbn [negb] in H.
    destruct (get_next_inactive_context_pos (w_st w)) as [k|] eqn:F.
    - change (lift (ok_or (Some k) MaxTcis)) with (@ret C P _ k) in H. mstep H.
      split.
      2:{ intros X. apply next_inactive_none in X. congruence. }
      intros ->. exfalso. apply next_inactive_ok in F. destruct F as [(old & Hold & _) _].
      pose proof (nth_error_lt _ _ _ Hold) as Hlt.
      destruct (N.testbit f 30).
      + repeat mstep H; try discriminate. apply respond_err in H. discriminate.
      + mstep H. mstep H; try discriminate; [|eapply gen_err; eauto].
        repeat mstep H; try discriminate. apply respond_err in H. discriminate.
    - change (lift (ok_or None MaxTcis)) with (@fail C P nat MaxTcis) in H. apply bind_fail_inv in H as [-> _].
      split; [intros _; apply next_inactive_none; exact F|reflexivity].
  Qed.

  (** MaxTcis is reported by no other reason than a full table. *)
  Definition allocates (cmd : command) : Prop :=
    match cmd with
    | CmdInitCtx _ => True
    | CmdDeriveContext d => N.testbit (dc_flags d) 24 = false /\ N.testbit (dc_flags d) 23 = false
    | _ => False
    end.

  Lemma full_no_creation cmd loc w n w' :
    wf cf (w_st w) -> allocates cmd -> (forall i c, at_slot (w_st w) i c -> live c) ->
    exec_command cf C P co po cg cmd loc w <> (Ok n, w').
  Proof.
    intros W A F H. apply command_effect in H; auto.
    destruct H as [(m & _ & He)|[N _]]; [|exfalso; eapply N; reflexivity].
    destruct cmd; cbn [allocates effect] in *; try contradiction.
    - destruct He as (k & h & [(x & Hx & Hi) _] & _). exact (F _ _ Hx Hi).
    - destruct A as [A1 A2]. rewrite A1, A2 in He.
      destruct He as (p & pc & pc' & k & h & dg & _ & [(x & Hx & Hi) _] & _). exact (F _ _ Hx Hi).
  Qed.

  (** ** Rejected derivations *)

  Lemma tci_type_unique_total s l ty :
    (forall i, In i l -> exists c, at_slot s i c) -> exists b, tci_type_unique s l ty = Ok b.
  Proof.
    induction l as [|k l IH]; cbn [tci_type_unique]; intros H; [eauto|].
    destruct (H k (or_introl eq_refl)) as (c & Hc). apply get_ctx_at in Hc. rewrite Hc. cbn [ok_or rbind].
    destruct (N.eqb _ _); [eauto|]. apply IH. intros i Hi. apply H. right; exact Hi.
  Qed.

  Lemma derive_bad_args_iff pc f :
    derive_bad_args pc f = false ->
    ~ (N.testbit f 25 = true /\ c_x509 pc = false) /\
    ~ (N.testbit f 24 = true /\ (c_recursive pc = false \/ N.testbit f 29 = true \/
                                 N.testbit f 21 = true \/ N.testbit f 23 = true)) /\
    ~ (N.testbit f 23 = true /\ (N.testbit f 22 = false \/ N.testbit f 27 = true \/
                                 c_type pc = Simulation \/ c_export pc = false)).
  Proof.
    unfold derive_bad_args, df_allow_x509, df_export_cdi, df_create_cert, df_recursive, df_change_locality,
      df_retain_parent, df_allow_recursive. rewrite !contains_bit.
    destruct (N.testbit f 25), (N.testbit f 24), (N.testbit f 23), (N.testbit f 22), (N.testbit f 27),
      (N.testbit f 29), (N.testbit f 21), (c_x509 pc), (c_recursive pc), (c_export pc), (c_type pc);
      cbn; intros H; try discriminate; intuition congruence.
  Qed.

  Lemma derive_rejected d loc w r w' p pc :
    exec_command cf C P co po cg (CmdDeriveContext d) loc w = (r, w') -> wf cf (w_st w) ->
    ~ unsupported_option (w_st w) (dc_flags d) ->
    first_slot (names (w_st w) (dc_handle d) loc) p -> at_slot (w_st w) p pc ->
    bad_request (w_st w) d p pc -> r = Err InvalidArgument /\ w' = w.
  Proof.
    intros H W U Hf Hp B. cbn [exec_command] in H. unfold exec_derive in H. mstep H.
    destruct (derive_unsupported (st_support (w_st w)) (dc_flags d)) eqn:Eu;
      [apply unsupported_iff in Eu; contradiction|].
    assert (E : get_active_context_and_idx (w_st w) (dc_handle d) loc = Ok (pc, p)) by (apply lookup_idx_ok; auto).
    rewrite E in H. change (lift (Ok (pc, p))) with (@ret C P _ (pc, p)) in H. mstep H.
    destruct (derive_bad_args pc (dc_flags d)) eqn:Eb; [mstep H; auto|].
    apply derive_bad_args_iff in Eb as (B1 & B2 & B3).
    destruct B as [B|[B|[B|(B & i & c & Hc & Hch & Ht)]]]; try contradiction.
    unfold df_recursive in H. rewrite contains_bit, B in H.
    destruct (tci_type_unique_total (w_st w) (children_iter cf (c_children pc)) (dc_tci_type d)) as (b & Hb).
    { intros k Hk. apply (in_children cf Hcf _ p pc k (wf_forest _ _ W) Hp) in Hk as (x & Hx & _). eauto. }
    rewrite Hb in H. change (lift (Ok b)) with (@ret C P _ b) in H. mstep H.
    destruct b; cbn [negb] in H; [|mstep H; auto].
    exfalso. apply (tci_type_unique_true _ _ _ Hb i c) in Ht; auto.
    apply (in_children cf Hcf _ p pc i (wf_forest _ _ W) Hp). exact Hch.
  Qed.

  (** Signing with a simulation context. *)
  Lemma sign_simulation c h loc w r w' p pc :
    exec_command cf C P co po cg (CmdSign c) loc w = (r, w') -> presents (CmdSign c) h ->
    first_slot (names (w_st w) h loc) p -> at_slot (w_st w) p pc -> c_type pc = Simulation ->
    r = Err InvalidArgument /\ w' = w.
  Proof.
    intros H Hp Hf Hpc Ht. cbn [exec_command presents] in *. unfold exec_sign in H.
    apply bind_lift_inv in H as [([[h' lb] da] & E & H)|[(er & E & -> & ->)|(k & E & -> & ->)]].
    - assert (h' = h).
      { destruct c; cbn [sign_inputs presents] in *; subst; try (inversion E; reflexivity).
        destruct (N.leb _ _); inversion E; reflexivity. }
      subst h'. mstep H.
      assert (El : get_active_context_pos (w_st w) h loc = Ok p) by (apply lookup_ok; auto).
      rewrite El in H. change (lift (Ok p)) with (@ret C P _ p) in H. mstep H.
      mstep H.
      + rewrite (at_det _ _ _ _ (proj1 (get_ctx_at _ _ _) G) Hpc) in *. rewrite Ht in H.
        cbn [ctx_type_eqb] in H. mstep H. auto.
      + exfalso. apply get_ctx_at in Hpc. congruence.
    - destruct c; cbn [sign_inputs] in E; try discriminate. destruct (N.leb _ _); inversion E; auto.
    - destruct c; cbn [sign_inputs] in E; try discriminate. destruct (N.leb _ _); inversion E.
  Qed.

  Lemma gen_err_kind w e w' : generate_new_handle C P co w = (Err e, w') ->
    (exists ce, e = CryptoErr ce) \/ e = InternalError HandleGenerationExhausted.
  Proof.
    unfold generate_new_handle. revert w e w'. induction max_new_handle_attempts as [|n IH];
      cbn [gen_handle_loop]; intros w e w' H; [inversion H; subst; auto|].
    apply bind_inv in H as [(a & w1 & E & H)|[(x & E & X)|(k & E & X)]]; [| |discriminate].
    - mstep H. destruct (_ && _)%bool; [discriminate|eauto].
    - inversion X; subst. unfold crypto in E. destruct (co_rand_bytes co handle_size (w_c w)) as [[b|ce] c'];
        inversion E; subst; eauto.
  Qed.

  (** A derivation that passed all earlier checks reports MaxTcis exactly when
      the table is full (if a new handle for the parent could be drawn). *)
  Lemma derive_capacity d loc w r w' p pc :
    exec_command cf C P co po cg (CmdDeriveContext d) loc w = (r, w') -> wf cf (w_st w) ->
    N.testbit (dc_flags d) 24 = false -> N.testbit (dc_flags d) 23 = false ->
    ~ unsupported_option (w_st w) (dc_flags d) ->
    first_slot (names (w_st w) (dc_handle d) loc) p -> at_slot (w_st w) p pc ->
    ~ bad_request (w_st w) d p pc ->
    (r = Err MaxTcis -> forall i c, at_slot (w_st w) i c -> live c) /\
    ((forall i c, at_slot (w_st w) i c -> live c) ->
     w_st w' = w_st w /\
     (r = Err MaxTcis \/
      N.testbit (dc_flags d) 29 = true /\ dc_handle d <> repeat 0%N 16 /\
      ((exists ce, r = Err (CryptoErr ce)) \/ r = Err (InternalError HandleGenerationExhausted)))).
  Proof.
    intros H W F24 F23 U Hf Hp B. cbn [exec_command] in H. unfold exec_derive in H. mstep H.
    destruct (derive_unsupported (st_support (w_st w)) (dc_flags d)) eqn:Eu;
      [apply unsupported_iff in Eu; contradiction|].
    assert (E : get_active_context_and_idx (w_st w) (dc_handle d) loc = Ok (pc, p)) by (apply lookup_idx_ok; auto).
    rewrite E in H. change (lift (Ok (pc, p))) with (@ret C P _ (pc, p)) in H. mstep H.
    assert (Eb : derive_bad_args pc (dc_flags d) = false).
    { destruct (derive_bad_args pc (dc_flags d)) eqn:Eb; [|reflexivity]. exfalso. apply B. clear -Eb F24 F23.
      unfold derive_bad_args, df_allow_x509, df_export_cdi, df_create_cert, df_recursive, df_change_locality,
      df_retain_parent, df_allow_recursive in Eb. rewrite !contains_bit, F24, F23 in Eb.
      rewrite !andb_false_r, !andb_false_l, !orb_false_r in Eb. apply andb_true_iff in Eb as [E1 E2].
      left. split; [exact E2|]. apply negb_true_iff; exact E1. }
    rewrite Eb in H. unfold df_recursive in H. rewrite contains_bit, F24 in H.
    destruct (tci_type_unique_total (w_st w) (children_iter cf (c_children pc)) (dc_tci_type d)) as (b & Hb).
    { intros k Hk. apply (in_children cf Hcf _ p pc k (wf_forest _ _ W) Hp) in Hk as (x & Hx & _). eauto. }
    rewrite Hb in H. change (lift (Ok b)) with (@ret C P _ b) in H. mstep H.
    destruct b; cbn [negb] in H.
    2:{ mstep H. split; [discriminate|]. exfalso. apply B. right; right; right. split; [exact F24|].
        clear -Hb Hcf W Hp.
        assert (K : exists i c, In i (children_iter cf (c_children pc)) /\ at_slot (w_st w) i c /\ tci_type (c_tci c) = dc_tci_type d).
        { revert Hb. generalize (children_iter cf (c_children pc)) as l.
          induction l as [|k l IH]; cbn [tci_type_unique]; intros Hb; [discriminate|].
          destruct (get_ctx (w_st w) k) as [ck|] eqn:G; cbn [ok_or rbind] in Hb; [|discriminate].
          destruct (N.eqb_spec (tci_type (c_tci ck)) (dc_tci_type d)) as [X|X].
          - exists k, ck. split; [left; reflexivity|]. apply (proj1 (get_ctx_at _ _ _)) in G. auto.
          - destruct (IH Hb) as (i & c & Hi & K). exists i, c. split; [right; exact Hi|exact K]. }
        destruct K as (i & c & Hi & Hc & Ht). exists i, c. split; [exact Hc|]. split; [|exact Ht].
        apply (proj1 (in_children cf Hcf _ p pc i (wf_forest _ _ W) Hp)). exact Hi. }
    mstep H. 2:{ exfalso. apply get_ctx_at in Hp. congruence. }
    rewrite (at_det _ _ _ _ (proj1 (get_ctx_at _ _ _) G) Hp) in *. clear G.
    assert (Hh : c_handle pc = dc_handle d).
    { destruct Hf as [(x & Hx & _ & _ & Hhx) _]. rewrite (at_det _ _ _ _ Hp Hx). exact Hhx. }
    apply bind_inv in H as [(pc' & w1 & Et & H)|[(er & Et & ->)|(k & Et & ->)]].
    - apply derive_tmp_parent_inv in Et as [[K1 K2] _].
      unfold df_create_cert, df_export_cdi in H. rewrite !contains_bit, F23, andb_false_r in H.
      unfold derive_child in H. mstep H. rewrite K1 in H.
      destruct (get_next_inactive_context_pos (w_st w)) as [k|] eqn:F.
      + split.
        2:{ intros X. apply next_inactive_none in X. congruence. }
        intros ->. exfalso. change (lift (ok_or (Some k) MaxTcis)) with (@ret C P _ k) in H. mstep H.
        mstep H; [discriminate|].
        apply bind_inv in H as [(h & w2 & Eh & H)|[(er & Eh & X)|(q & Eh & X)]]; [| |discriminate].
        2:{ inversion X; subst er. destruct (df_make_default _); [discriminate|]. eapply gen_err; eauto. }
        mstep H; try discriminate.
        apply bind_inv in H as [(tc & w3 & Ea & H)|[(er & Ea & X)|(q & Ea & X)]]; [| |discriminate].
        2:{ inversion X; subst er. unfold add_tci_measurement in Ea. mstep Ea; try discriminate. mstep Ea; try discriminate.
            apply bind_inv in Ea as [(dg & w4 & E4 & Ea)|[(x & E4 & X4)|(x & E4 & X4)]]; [| |discriminate].
            - mstep Ea; discriminate.
            - inversion X4; subst. apply hash_err in E4 as (ce & E4). discriminate. }
        apply bind_lift_inv in H as [(pc2 & E2 & H)|[(er & E2 & X & _)|(q & E2 & X & _)]]; [| |discriminate].
        2:{ inversion X; subst er. unfold ctx_add_child, children_add in E2.
            repeat match type of E2 with context[if ?b then _ else _] => destruct b; cbn [rbind] in E2 end; try discriminate. }
        mstep H; try discriminate. mstep H; try discriminate. mstep H; try discriminate.
        apply respond_err in H. discriminate.
      + change (lift (ok_or None MaxTcis)) with (@fail C P nat MaxTcis) in H. apply bind_fail_inv in H as [-> ->].
        split; [intros _; apply next_inactive_none; exact F|]. intros _. auto.
    - pose proof Et as Et2. apply derive_tmp_parent_inv in Et as [[K1 K2] _].
      unfold derive_tmp_parent, df_retain_parent in Et2. rewrite contains_bit in Et2.
      destruct (N.testbit (dc_flags d) 29); [|discriminate].
      destruct (handle_is_default (c_handle pc)) eqn:D; cbn [negb] in Et2; [discriminate|].
      apply bind_inv in Et2 as [(a & w1 & _ & X)|[(x & Eg & X)|(q & _ & X)]]; try discriminate.
      inversion X; subst x. apply gen_err_kind in Eg.
      split.
      + intros X2. inversion X2; subst. destruct Eg as [(ce & Eg)|Eg]; discriminate.
      + intros _. split; [exact K1|]. right. split; [reflexivity|]. split.
        * intros X2. rewrite <- Hh in X2. unfold handle_is_default in D.
          rewrite X2 in D. vm_compute in D. discriminate.
        * destruct Eg as [(ce & ->)| ->]; eauto.
    - apply derive_tmp_parent_inv in Et as [_ []].
  Qed.
End Capacity.

(** ** Initialising and destroying change the count *)
Lemma init_count cf f loc s s' :
  length (st_contexts s) = max_handles cf ->
  init_spec cf f loc s s' -> live_count s' = S (live_count s).
Proof.
  intros L (k & h & [(x & Hx & Ix) _] & _ & _ & _ & _ & HL & Ho & Hk).
  unfold live_count. apply count_one with (k := k); auto.
  - intros i c c' Hi Hc Hc'. rewrite (Ho i Hi) in Hc'. congruence.
  - exists x. split; [exact Hx|]. unfold is_live. rewrite Ix. reflexivity.
  - eexists. split; [exact Hk|]. reflexivity.
Qed.

Lemma child_count cf C (co : crypto_ops C) d loc s s' :
  child_spec cf co d loc s s' -> live_count s' = S (live_count s).
Proof.
  intros (p & pc & pc' & k & h & dg & G & [(x & Hx & Ix) _] & _ & (_ & HL & Ho) & _ & _ & _ & Hk & Hpc' & _ & _ & _ & Hs).
  destruct G as (Hf & Hpc & _).
  assert (Ap : c_state pc = Active).
  { destruct Hf as [(y & Hy & Ay & _) _]. rewrite (at_det _ _ _ _ Hpc Hy). exact Ay. }
  unfold live_count. apply count_one with (k := k); auto.
  - intros i c c' Hi Hc Hc'. destruct (Nat.eq_dec i p) as [->|Hne].
    + rewrite (at_det _ _ _ _ (Hc : at_slot s p c) Hpc), (at_det _ _ _ _ (Hc' : at_slot s' p c') Hpc').
      unfold is_live. rewrite Ap. destruct (N.testbit (dc_flags d) 29); destruct Hs as [-> _]; reflexivity.
    + rewrite Ho in Hc' by (intros [?|?]; contradiction). congruence.
  - exists x. split; [exact Hx|]. unfold is_live. rewrite Ix. reflexivity.
  - eexists. split; [exact Hk|]. reflexivity.
Qed.

Lemma count_of_slots (Q : nat -> Prop) f m : (forall i, i < m -> (f i = true <-> Q i)) ->
  forall n, count_of Q m n -> n = count_slots f m.
Proof.
  induction m as [|m IH]; intros H n X; inversion X; subst; cbn [count_slots].
  - reflexivity.
  - rewrite (proj2 (H m ltac:(lia)) ltac:(assumption)). cbn. f_equal. apply IH; auto.
  - destruct (f m) eqn:E; [exfalso; apply (H m) in E; [contradiction|lia]|]. apply IH; auto.
Qed.

Lemma dec_fun (Q : nat -> Prop) : (forall i, Q i \/ ~ Q i) -> forall m, exists f, forall i, i < m -> (f i = true <-> Q i).
Proof.
  intros D. induction m as [|m (f & Hf)].
  - exists (fun _ => false). intros; lia.
  - destruct (D m) as [Y|N].
    + exists (fun i => if Nat.eqb i m then true else f i). intros i Hi.
      destruct (Nat.eqb_spec i m) as [->|Hne]; [tauto|apply Hf; lia].
    + exists (fun i => if Nat.eqb i m then false else f i). intros i Hi.
      destruct (Nat.eqb_spec i m) as [->|Hne]; [split; [discriminate|contradiction]|apply Hf; lia].
Qed.

Lemma doomed_live cf s t : forest cf s -> live_at s t -> forall i, doomed s t i -> live_at s i.
Proof.
  intros F Lt i D. induction D as [|p i _ _ (c & Hc & Lc & _)|i c k Hc Hr _ _ _].
  - exact Lt.
  - exists c; auto.
  - exists c. split; [exact Hc|]. unfold live. congruence.
Qed.

Lemma pruned_count cf s t s' : config_ok cf -> wf cf s -> live_at s t -> pruned cf s (doomed s t) s' ->
  forall n, count_of (doomed s t) (max_handles cf) n -> live_count s' + n = live_count s.
Proof.
  intros Hcf W Lt (_ & HL & Hp) n Hn. pose proof (fo_size _ _ (wf_forest _ _ W)) as Sz.
  destruct (dec_fun (doomed s t) (doomed_dec cf Hcf s t (wf_forest _ _ W) Lt) (max_handles cf)) as (f & Hf).
  rewrite (count_of_slots _ f _ Hf _ Hn). unfold live_count. rewrite <- Sz.
  apply count_removed; auto.
  - intros i c c' Hc Hc'. destruct (Hp i c Hc) as (c2 & H2 & K1 & K2).
    rewrite (at_det _ _ _ _ (Hc' : at_slot s' i c') H2) in *.
    pose proof (nth_error_lt _ _ _ Hc) as Hlt. rewrite Sz in Hlt. specialize (Hf i Hlt).
    destruct (f i).
    + destruct (K1 (proj1 Hf eq_refl)) as (Bk & _). unfold is_live. destruct Bk as (-> & _). reflexivity.
    + assert (N : ~ doomed s t i) by (intros X; apply Hf in X; discriminate).
      destruct (K2 N) as ((_ & _ & _ & _ & _ & St & _) & _). unfold is_live. rewrite St. reflexivity.
  - intros i c Hc Fi. pose proof (nth_error_lt _ _ _ Hc) as Hlt. rewrite Sz in Hlt. apply Hf in Fi; [|exact Hlt].
    destruct (doomed_live cf s t (wf_forest _ _ W) Lt i Fi) as (x & Hx & Lx).
    rewrite (at_det _ _ _ _ (Hc : at_slot s i c) Hx). apply is_live_iff. exact Lx.
Qed.

Lemma count_of_ex (Q : nat -> Prop) : (forall i, Q i \/ ~ Q i) -> forall m, exists n, count_of Q m n.
Proof.
  intros D. induction m as [|m (n & Hn)]; [exists 0; constructor|].
  destruct (D m); [exists (S n)|exists n]; constructor; auto.
Qed.

Lemma count_of_pos (Q : nat -> Prop) m n : count_of Q m n -> forall i, i < m -> Q i -> 1 <= n.
Proof.
  induction 1 as [|m n Hq _ IH|m n Hq _ IH]; intros i Hi Qi; [lia|lia|].
  apply (IH i); [|exact Qi]. destruct (Nat.eq_dec i m) as [->|]; [contradiction|lia].
Qed.

(** ** The shape of the doomed set *)
Lemma path_antisym s i j li lj : path s i li -> path s j lj -> In j li -> In i lj -> i = j.
Proof.
  intros Hi Hj Ij Ii.
  destruct (path_suffix _ _ _ Hi _ Ij) as (a & b & Ea & Pa).
  destruct (path_suffix _ _ _ Hj _ Ii) as (c & d & Ec & Pc).
  pose proof (path_det _ _ _ Hj _ Pa) as E1. pose proof (path_det _ _ _ Hi _ Pc) as E2.
  destruct (path_head _ _ _ Hi) as (l1 & Hl1). 
  assert (L : length a = 0).
  { apply (f_equal (@length nat)) in Ea, Ec, E1, E2. rewrite app_length in Ea, Ec. cbn [length] in *. lia. }
  destruct a; [|discriminate]. cbn in Ea. congruence.
Qed.

Definition lone (s : state) (j : nat) : Prop :=
  exists c, at_slot s j c /\ c_state c = Retired /\ forall k k', child_of s j k -> child_of s j k' -> k = k'.

Lemma tail_path s t p l : path s t (t :: p :: l) -> path s p (p :: l) /\ child_of s p t.
Proof.
  intros H. inversion H as [|i c l0 Hc Hl Hr Hp]; subst.
  destruct (path_head _ _ _ Hp) as (l1 & E). injection E as E1 E2. rewrite <- E1 in Hp. split; [exact Hp|]. exists c; auto.
Qed.

Lemma chain_lone s t l i : path s t (t :: l) ->
  (chain s t l i <-> In i l /\ forall j, In j l -> below s i j -> lone s j).
Proof.
  intros Hp. split.
  - intros Hc. split; [eapply chain_in; eauto|]. revert Hp.
    induction Hc as [t p l c Hcc Hr [Ho1 Ho2]|t p l c x Hcc Hr [Ho1 Ho2] Hch IH]; intros Hp j Hj Hb.
    + destruct (tail_path _ _ _ _ Hp) as [Hp2 _]. destruct Hj as [<-|Hj].
      * exists c. repeat split; auto. intros k k' Hk Hk'. rewrite (Ho2 k Hk), (Ho2 k' Hk'). reflexivity.
      * destruct Hb as (lj & Hlj & Hin).
        assert (p = j) by (eapply path_antisym; [exact Hp2|exact Hlj|right; exact Hj|exact Hin]). subst j.
        exfalso. pose proof (path_NoDup _ _ _ Hp2) as ND. inversion ND; contradiction.
    + destruct (tail_path _ _ _ _ Hp) as [Hp2 _]. destruct Hj as [<-|Hj].
      * exists c. repeat split; auto. intros k k' Hk Hk'. rewrite (Ho2 k Hk), (Ho2 k' Hk'). reflexivity.
      * eapply IH; eauto.
  - revert t Hp. induction l as [|p l IH]; intros t Hp [Hin H]; [destruct Hin|].
    destruct (tail_path _ _ _ _ Hp) as [Hp2 Hch].
    assert (Hb : below s i p) by (exists (p :: l); split; assumption).
    destruct (H p (or_introl eq_refl) Hb) as (c & Hc & Hr & Hu).
    assert (Ho : only_child s p t) by (split; [exact Hch|intros j Hj; apply Hu; assumption]).
    destruct Hin as [<-|Hin]; [eapply chain_here; eauto|].
    eapply chain_up; eauto. apply IH; [exact Hp2|]. split; [exact Hin|]. intros j Hj. apply H. right; exact Hj.
Qed.

Lemma doomed_shape cf (Hcf : config_ok cf) s t : forest cf s -> live_at s t ->
  forall i, doomed s t i <->
    below s t i \/
    (i <> t /\ below s i t /\
     forall j, below s j t -> j <> t -> below s i j ->
       exists c, at_slot s j c /\ c_state c = Retired /\
         forall k k', child_of s j k -> child_of s j k' -> k = k').
Proof.
  intros F Lt i. destruct (fo_acyclic _ _ F t Lt) as (l' & Hl').
  destruct (path_head _ _ _ Hl') as (l & ->).
  rewrite (doomed_iff cf Hcf s t l F Hl' i), (chain_lone s t l i Hl').
  pose proof (path_NoDup _ _ _ Hl') as ND. inversion ND as [|? ? Hni _]; subst.
  assert (B : forall j, below s j t <-> j = t \/ In j l).
  { intros j. split.
    - intros (lj & Hlj & Hin). rewrite (path_det _ _ _ Hlj _ Hl') in Hin. destruct Hin; auto.
    - intros Hj. exists (t :: l). split; [exact Hl'|]. destruct Hj; [left; auto|right; auto]. }
  split; (intros [H|H]; [left; exact H|right]).
  - destruct H as [H1 H2]. split; [intros ->; contradiction|]. split; [apply B; auto|].
    intros j Hj Hne. apply H2. apply B in Hj. destruct Hj; [contradiction|assumption].
  - destruct H as (H1 & H2 & H3). apply B in H2. destruct H2 as [H2|H2]; [contradiction|].
    split; [exact H2|]. intros j Hj. apply H3; [apply B; auto|intros ->; contradiction].
Qed.
