(** Ledger.v -- the cumulative measurement of a context is the hash chain of the
    measurements it received: specification (the ledger) and proofs. *)
From Verif Require Import Base Errors Types StateOps Env Wire Instance Commands Lib Spec Exec
  Effects Forest DestroyProofs History Steps Reach Frame Contract Denials CommandSpecs Responses
  Walk Measure Reasons Explain.
Local Open Scope nat_scope.

(** ** Specification *)

(** The slot [i] that receives the measurement [m] when [cmd] is carried out in
    state [s]: the addressed context (RECURSIVE), the slot of the new child, or
    the active child with the given type. *)
Definition receives (cmd : command) (loc : N) (s : state) (i : nat) (m : bytes) : Prop :=
  match cmd with
  | CmdDeriveContext d =>
      m = dc_data d /\
      if N.testbit (dc_flags d) 24 then first_slot (names s (dc_handle d) loc) i
      else N.testbit (dc_flags d) 23 = false /\ first_slot (free_at s) i
  | CmdUpdateContextMeasurement u =>
      m = uc_data u /\
      exists p c, first_slot (names s (uc_parent_handle u) loc) p /\ child_of s p i /\ at_slot s i c /\
                  c_state c = Active /\ tci_type (c_tci c) = uc_tci_type u
  | _ => False
  end.

(** A command is carried out if it succeeds; a response buffer that is too small
    is only discovered afterwards. *)
Definition carried_out (r : result N) : Prop := (exists n, r = Ok n) \/ r = Err InvalidResponseBuf.

(** [L i] becomes [L' i]: the list of measurements received by the context in
    slot [i] since it was created, latest last. *)
Definition logs (cmd : command) (loc : N) (s : state) (r : result N) (s' : state) (L L' : nat -> list bytes) : Prop :=
  forall i,
    (~ live_at s' i -> L' i = []) /\
    (live_at s' i -> forall m, carried_out r -> receives cmd loc s i m -> L' i = L i ++ [m]) /\
    (live_at s' i -> (~ carried_out r \/ forall m, ~ receives cmd loc s i m) -> L' i = L i).

Inductive ledger (cf : config) (E : env -> Prop) (G : state -> command -> N -> Prop)
  : list event -> state -> (nat -> list bytes) -> Prop :=
| le_new sup fl L : u32 sup -> (forall i, L i = []) -> ledger cf E G [] (state_new cf sup fl) L
| le_create l s e r s' L :
    ledger cf E G l s L -> E e -> creates cf e s r s' ->
    (forall loc, G s (CmdInitCtx (2 ^ 30)) loc) -> ledger cf E G (EvNew r :: l) s' L
| le_measured sup fl e ty m r s' L :
    E e -> u32 sup -> u32 ty -> byte_string (tci_size cf) m ->
    creates_measured cf e ty m (state_new cf sup fl) r s' ->
    (r = Ok tt -> L 0 = [m]) -> (r <> Ok tt -> L 0 = []) -> (forall i, i <> 0 -> L i = []) ->
    ledger cf E G [EvNewMeasured ty m r] s' L
| le_command l s e cmd loc r s' L L' :
    ledger cf E G l s L -> E e -> command_wf cf cmd -> u32 loc -> G s cmd loc ->
    executes cf e cmd loc s r s' -> logs cmd loc s r s' L L' ->
    ledger cf E G (EvCommand cmd loc r :: l) s' L'.

(** [d] is the chain of [ms]: start with zeroes, hash in one after the other. *)
Inductive tci_chain (t : nat) (HF : list bytes -> bytes -> Prop) : list bytes -> bytes -> Prop :=
| tc_nil : tci_chain t HF [] (repeat 0%N t)
| tc_snoc ms m x d : tci_chain t HF ms x -> HF [x; m] d -> tci_chain t HF (ms ++ [m]) d.

(** Some environment of the history hashed [l] to [d]. *)
Definition some_hash (E : env -> Prop) (l : list bytes) (d : bytes) : Prop :=
  exists e, E e /\ hash_of (e_crypto e) l d.

(** ** Proofs *)
Section OneStep.
  Variable cf : config.
  Hypothesis Hcf : config_ok cf.
  Context {C P : Type}.
  Variable co : crypto_ops C.
  Variable po : platform_ops P.
  Variable cg : cert_kind -> cert_args -> nat -> state -> C -> P -> bytes ->
                result cert_result * C * P * bytes.
  Notation world := (world C P).

  Lemma roll_not_irb c (w : world) e w' : roll_handle C P co c w = (Err e, w') -> e <> InvalidResponseBuf.
  Proof. intros H. apply roll_err in H as [_ [(ce & -> & _)|(-> & _)]]; discriminate. Qed.
  Lemma gen_not_irb (w : world) e w' : generate_new_handle C P co w = (Err e, w') -> e <> InvalidResponseBuf.
  Proof. intros H. apply gen_err in H as [(ce & -> & _)|(-> & _)]; discriminate. Qed.
  Lemma add_tci_not_irb c m l (w : world) e w' :
    length (tci_cumulative (c_tci c)) = tci_size cf ->
    add_tci_measurement C P co c m l w = (Err e, w') -> e <> InvalidResponseBuf.
  Proof.
    intros L H. apply (add_tci_err cf) in H as [(-> & _)|[(-> & _)|[(ce & -> & _)|(-> & _)]]]; auto; discriminate.
  Qed.

  (** A response buffer that is too small is discovered after the state changed. *)
  Lemma derive_irb c loc (w : world) w' :
    wf cf (w_st w) -> N.testbit (dc_flags c) 24 = true \/ N.testbit (dc_flags c) 23 = false ->
    exec_derive cf C P co po cg c loc w = (Err InvalidResponseBuf, w') ->
    effect cf co (CmdDeriveContext c) loc (w_st w) (w_st w').
  Proof.
    intros W B23 H.
    pose proof H as H0. apply exec_derive_inv in H0 as [(K & N & _)|[(s' & bs & Hd & Hf)|[(s' & bs & Hd & Hf)|(s' & w2 & cr & ph & Hd & Hf)]]].
    2:{ destruct Hf as [-> _]. apply recursive_done_spec in Hd as (B & Hd); [|exact W]. cbn [effect]. rewrite B. exact Hd. }
    2:{ destruct Hf as [-> _]. apply child_done_spec in Hd as (B & B2 & Hd); auto. cbn [effect]. rewrite B, B2. exact Hd. }
    2:{ apply export_done_spec in Hd as (B & B2 & Hd); auto. destruct B23; congruence. }
    clear N. unfold exec_derive in H. mstep H. mstep H; [mstep H|].
    mstep H; [|apply lookup_idx_explained in E; destruct E as [_ [[E _]|[E _]]]; discriminate].
    destruct a as [pc p]. apply lookup_idx_ok in E as [Hf Hpc].
    pose proof (nth_error_lt _ _ _ Hpc) as Hlt. pose proof Hf as [(pc0 & Hpc0 & Ha & Hl & Hh) _].
    assert (pc0 = pc) by (unfold at_slot in *; congruence). subst pc0.
    mstep H; [mstep H|].
    assert (Hok : derive_ok c loc (w_st w) p pc) by (split; [exact B|]; auto).
    assert (Hcl : length (tci_cumulative (c_tci pc)) = tci_size cf)
        by (apply (so_cumulative _ _ _ (wf_slot _ _ W _ _ Hpc))).
    mstep H.
    - fold (derive_target c loc) in H. unfold derive_recursive in H.
      mstep H. assert (c0 = pc) by (unfold at_slot, get_ctx in *; congruence). subst c0.
      mstep H; [mstep H|]. apply negb_false_iff, N.eqb_eq in B2.
      mstep H; [|exfalso; eapply add_tci_not_irb; [exact Hcl|exact E|reflexivity]].
      pose proof (add_tci_keeps C P co _ _ _ _ _ _ E) as [K0 Ko0].
      apply add_tci_ok in E as (_ & Hloc & d & Hd & Hdl & ->).
      mstep H; [|exfalso; eapply roll_not_irb; [exact E|reflexivity]].
      pose proof (roll_handle_keeps C P co _ _ _ _ E) as [K1 Ko1].
      apply roll_handle_ok in E. rewrite K0 in E.
      mstep H.
      apply respond_inv in H as (Hs & _). cbn [w_st] in Hs.
      assert (D : derive_recursive_done cf C P co c loc (w_st w) (w_st w') (two_handle_resp_bytes cf (c_handle a) default_handle)).
      { exists p, pc, a, d. repeat (split; [first [eassumption|reflexivity]|]).
        split; [unfold derive_target in *; congruence|]. repeat (split; [first [eassumption|reflexivity]|]).
        split; [rewrite Hs, K1, K0; reflexivity|reflexivity]. }
      apply recursive_done_spec in D as (Bx & D); [|exact W]. cbn [effect]. rewrite Bx. exact D.
    - unfold df_recursive in B1. rewrite contains_bit in B1. destruct B23 as [B23|B23]; [congruence|].
      mstep H; [|exfalso].
      2:{ clear -E. revert E. induction (children_iter cf (c_children pc)) as [|j l IH]; cbn [tci_type_unique]; [discriminate|].
          destruct (get_ctx (w_st w) j) as [x|]; cbn [ok_or rbind]; [|discriminate].
          destruct (N.eqb (tci_type (c_tci x)) (dc_tci_type c)); [discriminate|exact IH]. }
      mstep H; [mstep H|].
      mstep H. assert (c0 = pc) by (unfold at_slot, get_ctx in *; congruence). subst c0.
      mstep H.
      2:{ exfalso. unfold derive_tmp_parent in E0. destruct (df_retain_parent (dc_flags c)); [|mstep E0].
          mstep E0; [|mstep E0]. mstep E0; [mstep E0|]. eapply gen_not_irb; [exact E1|reflexivity]. }
      apply derive_tmp_parent_inv in E0 as ([K0 Ko0] & Htp & _).
      unfold df_export_cdi in H at 1. rewrite contains_bit, B23, andb_false_r in H.
      unfold derive_child in H. mstep H. rewrite K0 in H.
      mstep H; [|apply ok_or_inv in E0 as [(? & _ & X)|[_ X]]; discriminate].
      apply ok_or_inv in E0 as [(k & E0 & X)|[_ X]]; [|discriminate]. injection X as <-.
      apply next_inactive_ok in E0 as [(old & Hold & Hio) _]. pose proof (nth_error_lt _ _ _ Hold) as Hltk.
      mstep H; [mstep H|].
      assert (EH : exists h w2, (if df_make_default (dc_flags c) then ret default_handle
                 else generate_new_handle C P co) w1 = (Ok h, w2) /\ w_st w2 = w_st w1).
      { unfold bind at 1 in H.
        destruct (if df_make_default (dc_flags c) then ret default_handle else generate_new_handle C P co) as [[h|e|k] w2] eqn:EE.
        - exists h, w2. split; [reflexivity|]. destruct (df_make_default (dc_flags c)).
          + apply ret_inv in EE as [_ ->]. reflexivity.
          + apply generate_new_handle_keeps in EE as [X _]. exact X.
        - exfalso. injection H as -> _. destruct (df_make_default (dc_flags c)).
          + apply ret_inv in EE as [EE _]; discriminate.
          + eapply gen_not_irb; [exact EE|reflexivity].
        - discriminate. }
      destruct EH as (h & w2 & EH & K1). unfold bind at 1 in H. rewrite EH in H. cbv beta iota in H. clear EH.
      mstep H. rewrite K1, K0 in G0. assert (c0 = pc) by (unfold at_slot, get_ctx in *; congruence). subst c0.
      mstep H.
      2:{ exfalso. eapply add_tci_not_irb; [|exact E0|reflexivity]. apply repeat_length. }
      pose proof (add_tci_keeps C P co _ _ _ _ _ _ E0) as [K3 Ko3].
      apply add_tci_ok in E0 as (_ & _ & dg & Hd & Hdl & ->).
      mstep H.
      2:{ exfalso. unfold ctx_add_child, children_add in E0. destruct (Nat.leb (max_handles cf) a1); discriminate. }
      mstep H. mstep H. cbn [w_st w_c w_p w_out] in H.
      mstep H. apply respond_inv in H as [Hs _]. cbn [w_st] in Hs. exfalso.
      assert (X : at_slot (w_st w') a1 old) by (rewrite K; exact Hold).
      rewrite Hs, K3, K1, K0 in X. apply at_put_iff in X as [(Y & _ & Z)|[Y X]].
      + subst a1. unfold at_slot in *. rewrite Hpc in Hold. injection Hold as <-. congruence.
      + apply at_put_iff in X as [(_ & _ & Z)|[X _]]; [|congruence]. rewrite Z in Hio. discriminate.
  Qed.

  Lemma update_irb c loc (w : world) w' :
    wf cf (w_st w) -> exec_update cf C P co c loc w = (Err InvalidResponseBuf, w') ->
    update_spec cf co c loc (w_st w) (w_st w').
  Proof.
    intros W H. unfold exec_update in H. mstep H; [mstep H|].
    apply handle_is_default_neq in B.
    mstep H. mstep H; [|destruct (get_active_context_pos (w_st w) (uc_parent_handle c) loc); discriminate].
    assert (Hp : get_active_context_pos (w_st w) (uc_parent_handle c) loc = Ok a).
    { destruct (get_active_context_pos (w_st w) (uc_parent_handle c) loc); congruence. }
    clear E. apply lookup_ok in Hp. pose proof Hp as [(c0' & Hc & _) _].
    pose proof (nth_error_lt _ _ _ Hc) as Hlt.
    mstep H. mstep H; [|apply ok_or_inv in E as [(? & _ & X)|[_ X]]; discriminate].
    apply ok_or_inv in E as [(ch & Hch & E)|[_ E]]; [|discriminate]. injection E as <-.
    mstep H.
    mstep H.
    2:{ exfalso. eapply add_tci_not_irb; [|exact E|reflexivity]. apply (so_cumulative _ _ _ (wf_slot _ _ W _ _ G0)). }
    pose proof (add_tci_keeps C P co _ _ _ _ _ _ E) as [K0 _].
    apply add_tci_ok in E as (Ha & _ & d & Hd & Hl & ->).
    mstep H. rewrite K0 in *. assert (c2 = c0) by congruence. subst c2.
    mstep H; [|exfalso; eapply roll_not_irb; [exact E|reflexivity]].
    pose proof (roll_handle_keeps C P co _ _ _ _ E) as [K1 _]. apply roll_handle_ok in E. rewrite K0 in E.
    mstep H.
    mstep H; [|exfalso; eapply roll_not_irb; [exact E0|reflexivity]].
    pose proof (roll_handle_keeps C P co _ _ _ _ E0) as [K2 _]. apply roll_handle_ok in E0. cbn [w_st] in *.
    mstep H. apply respond_inv in H as [Hs _]. cbn [w_st] in Hs.
    rewrite Hs, K2. rewrite K1, K0 in *.
    assert (HH : update_half cf C P co c loc (w_st w) (put_ctx (w_st w) a a1) a a0 c0 a1 c1
                   (set_tci (extend (c_tci c1) d (uc_data c)) c1)).
    { repeat (split; [first [eassumption|reflexivity]|]).
      split; [exists d; auto|]. split; [exact E|reflexivity]. }
    apply (update_half_spec cf C P co Hcf) in HH as [_ HH]; [|exact W]. apply HH. exact E0.
  Qed.

  (** A command that was carried out has its full effect if it measures anything. *)
  Lemma carried_effect cmd loc (w : world) r w' :
    wf cf (w_st w) -> exec_command cf C P co po cg cmd loc w = (r, w') -> carried_out r ->
    (exists i m, receives cmd loc (w_st w) i m) -> effect cf co cmd loc (w_st w) (w_st w').
  Proof.
    intros W H [(n & ->)| ->] (i & m & R).
    - apply (command_effect cf C P co po cg Hcf) in H; [|exact W].
      destruct H as [(n' & _ & H)|[N _]]; [exact H|]. exfalso. eapply N; reflexivity.
    - destruct cmd; cbn [receives] in R; try contradiction; cbn [exec_command] in H.
      + eapply derive_irb; [exact W| |exact H]. destruct (N.testbit (dc_flags c) 24); [left; reflexivity|].
        right. tauto.
      + cbn [effect]. eapply update_irb; eauto.
  Qed.
End OneStep.

Lemma first_slot_det (Q : nat -> Prop) i j : first_slot Q i -> first_slot Q j -> i = j.
Proof.
  intros [F1 F2] [T1 T2].
  destruct (Nat.lt_trichotomy i j) as [L|[L|L]]; [exfalso; eapply T2; eauto|exact L|exfalso; eapply F2; eauto].
Qed.

Section Step.
  Variable cf : config.
  Hypothesis Hcf : config_ok cf.
  Context {C : Type}.
  Variable co : crypto_ops C.

  Definition tci_kept (c c' : context) : Prop :=
    tci_cumulative (c_tci c') = tci_cumulative (c_tci c) /\ tci_current (c_tci c') = tci_current (c_tci c).
  Definition tci_hashed (m : bytes) (c c' : context) : Prop :=
    hash_of co [tci_cumulative (c_tci c); m] (tci_cumulative (c_tci c')) /\ tci_current (c_tci c') = m.

  Lemma kept_refl c : tci_kept c c.
  Proof. split; reflexivity. Qed.
  Lemma kept_eq c c' : c_tci c' = c_tci c -> tci_kept c c'.
  Proof. intros E. unfold tci_kept. rewrite E. split; reflexivity. Qed.

  (** Who receives a measurement is determined. *)
  Lemma receives_det cmd loc s i j m n : wf cf s -> receives cmd loc s i m -> receives cmd loc s j n -> i = j /\ m = n.
  Proof.
    intros W. destruct cmd; cbn [receives]; try contradiction.
    - intros (-> & H1) (-> & H2). split; [|reflexivity]. destruct (N.testbit (dc_flags c) 24).
      + eapply first_slot_det; eauto.
      + eapply first_slot_det; [apply H1|apply H2].
    - intros (-> & p & x & P1 & (x0 & X1 & X2 & X3) & X4 & X5 & X6) (-> & q & y & Q1 & (y0 & Y1 & Y2 & Y3) & Y4 & Y5 & Y6).
      split; [|reflexivity]. rewrite (at_det _ _ _ _ X1 X4) in *. rewrite (at_det _ _ _ _ Y1 Y4) in *.
      pose proof (first_slot_det _ _ _ P1 Q1) as E. subst p q.
      destruct (Nat.eq_dec (c_parent x) ROOT) as [R|R].
      + exfalso. destruct P1 as [(z & Hz & _) _]. apply at_lt in Hz.
        rewrite (fo_size _ _ (wf_forest _ _ W)), R in Hz. unfold config_ok in Hcf. unfold ROOT in Hz. lia.
      + eapply (wf_siblings _ _ W); eauto; congruence.
  Qed.

  (** The effect on the measurements of every slot. *)
  Lemma effect_tci cmd loc s s' : wf cf s -> effect cf co cmd loc s s' ->
    forall i c', at_slot s' i c' -> live c' ->
      exists c, at_slot s i c /\
        (forall m, receives cmd loc s i m -> tci_hashed m c c') /\
        ((forall m, ~ receives cmd loc s i m) -> tci_kept c c').
  Proof.
    intros W H i c' Hc' Lc'.
    assert (Same : forall Q, only_slots Q s s' -> ~ Q i -> at_slot s i c').
    { intros Q (_ & _ & O) Nq. unfold at_slot in *. rewrite <- (O i Nq). exact Hc'. }
    assert (Quiet : (forall m, ~ receives cmd loc s i m) -> (exists c, at_slot s i c /\ tci_kept c c') ->
              exists c, at_slot s i c /\ (forall m, receives cmd loc s i m -> tci_hashed m c c') /\
                ((forall m, ~ receives cmd loc s i m) -> tci_kept c c')).
    { intros N (c & Hc & K). exists c. split; [exact Hc|]. split; [|auto]. intros m R. exfalso. exact (N m R). }
    assert (Loud : forall m, receives cmd loc s i m -> (exists c, at_slot s i c /\ tci_hashed m c c') ->
              exists c, at_slot s i c /\ (forall m, receives cmd loc s i m -> tci_hashed m c c') /\
                ((forall m, ~ receives cmd loc s i m) -> tci_kept c c')).
    { intros m R (c & Hc & K). exists c. split; [exact Hc|]. split.
      - intros n Rn. destruct (receives_det _ _ _ _ _ _ _ W R Rn) as [_ <-]. exact K.
      - intros N. exfalso. exact (N m R). }
    assert (Roll : forall h, rolled_only h loc s s' -> exists c, at_slot s i c /\ tci_kept c c').
    { intros h (j & c & d & _ & Hc & O & Hd & S & _). destruct (Nat.eq_dec j i) as [<-|Hne].
      - rewrite (at_det _ _ _ _ Hc' Hd). exists c. split; [exact Hc|]. apply kept_eq, S.
      - exists c'. split; [eapply Same; eauto|apply kept_refl]. }
    assert (Prune : forall t, pruned cf s (doomed s t) s' -> live_at s t -> exists c, at_slot s i c /\ tci_kept c c').
    { intros t Hp Ht. destruct (pruned_back cf Hcf s t s' W Ht Hp i c' Hc' Lc') as (c & Hc & S & _).
      exists c. split; [exact Hc|]. apply kept_eq, S. }
    destruct cmd; cbn [effect] in H.
    - apply Quiet; [intros m []|]. subst s'. exists c'. split; [exact Hc'|apply kept_refl].
    - apply Quiet; [intros m []|]. destruct H as (k & h & [(old & Hold & Iold) _] & _ & _ & _ & _ & _ & O & Hn).
      destruct (Nat.eq_dec k i) as [<-|Hne].
      + rewrite (at_det _ _ _ _ Hc' Hn). exists old. split; [exact Hold|].
        destruct (so_free _ _ _ (wf_slot _ _ W _ _ Hold) Iold) as (_ & B & _). unfold tci_kept. rewrite B. split; reflexivity.
      + exists c'. split; [|apply kept_refl]. unfold at_slot in *. rewrite <- (O i) by auto. exact Hc'.
    - destruct (N.testbit (dc_flags c) 24) eqn:B24.
      + destruct H as (j & d & d' & (Hf & Hd & _) & _ & _ & _ & O & Hd' & X & _).
        destruct (Nat.eq_dec j i) as [->|Hne].
        * apply (Loud (dc_data c)).
          { cbn [receives]. rewrite B24. auto. }
          rewrite (at_det _ _ _ _ Hc' Hd'). exists d. split; [exact Hd|].
          destruct X as (_ & _ & _ & X1 & X2 & _). split; auto.
        * apply Quiet; [|exists c'; split; [eapply Same; eauto|apply kept_refl]].
          cbn [receives]. rewrite B24. intros m [_ Hi]. apply Hne. eapply first_slot_det; eauto.
      + destruct (N.testbit (dc_flags c) 23) eqn:B23.
        * apply Quiet.
          { cbn [receives]. rewrite B24, B23. intros m [_ [X _]]; discriminate. }
          destruct H as (p & pc & (Hf & Hpc & _) & _ & H).
          destruct (N.testbit (dc_flags c) 29).
          { destruct H as (pc' & O & Hpc' & S & _). destruct (Nat.eq_dec p i) as [->|Hne].
            - rewrite (at_det _ _ _ _ Hc' Hpc'). exists pc. split; [exact Hpc|]. apply kept_eq, S.
            - exists c'. split; [eapply Same; eauto|apply kept_refl]. }
          destruct (N.eqb (c_children pc) 0).
          { eapply Prune; [exact H|]. destruct Hf as [(x & Hx & Ax & _) _]. exists x. split; [exact Hx|].
            unfold live. congruence. }
          { destruct H as (pc' & O & Hpc' & _ & _ & _ & _ & S). destruct (Nat.eq_dec p i) as [->|Hne].
            - rewrite (at_det _ _ _ _ Hc' Hpc'). exists pc. split; [exact Hpc|]. apply kept_eq, S.
            - exists c'. split; [eapply Same; eauto|apply kept_refl]. }
        * destruct H as (p & pc & pc' & k & h & dg & (Hf & Hpc & _) & Hk & _ & O & Hd & _ & _ & Hn & Hpc' & _ & S & _).
          destruct (Nat.eq_dec k i) as [->|Hne].
          { apply (Loud (dc_data c)).
            { cbn [receives]. rewrite B24, B23. auto. }
            destruct Hk as [(old & Hold & Iold) _]. exists old. split; [exact Hold|].
            rewrite (at_det _ _ _ _ Hc' Hn). unfold tci_hashed.
            destruct (so_free _ _ _ (wf_slot _ _ W _ _ Hold) Iold) as (_ & B & _). rewrite B. split; [exact Hd|reflexivity]. }
          apply Quiet.
          { cbn [receives]. rewrite B24, B23. intros m (_ & _ & Hi). apply Hne. eapply first_slot_det; eauto. }
          destruct (Nat.eq_dec p i) as [->|Hnp].
          { rewrite (at_det _ _ _ _ Hc' Hpc'). exists pc. split; [exact Hpc|]. apply kept_eq, S. }
          exists c'. split; [eapply Same; [exact O|]; intros [X|X]; congruence|apply kept_refl].
    - apply Quiet; [intros m []|]. destruct H as (h & _ & H). eapply Roll; eauto.
    - apply Quiet; [intros m []|]. destruct H as (h & _ & H). eapply Roll; eauto.
    - apply Quiet; [intros m []|]. destruct H as (j & x & y & _ & Hx & _ & O & Hy & S & _).
      destruct (Nat.eq_dec j i) as [->|Hne].
      + rewrite (at_det _ _ _ _ Hc' Hy). exists x. split; [exact Hx|]. apply kept_eq, S.
      + exists c'. split; [eapply Same; eauto|apply kept_refl].
    - apply Quiet; [intros m []|]. destruct H as (t & Ht & Hp). eapply Prune; [exact Hp|].
      destruct Ht as [(x & Hx & Ax & _) _]. exists x. split; [exact Hx|]. unfold live. congruence.
    - apply Quiet; [intros m []|]. subst s'. exists c'. split; [exact Hc'|apply kept_refl].
    - destruct H as (p & pc & pc' & j & d & d' & _ & Hf & Hpc & Hd & Hch & Ad & Td & Hjp & O & Hpc' & S & _ & Hd' & X & _).
      assert (R : receives (CmdUpdateContextMeasurement c) loc s j (uc_data c)).
      { cbn [receives]. split; [reflexivity|]. exists p, d. auto 10. }
      destruct (Nat.eq_dec j i) as [->|Hne].
      + apply (Loud (uc_data c) R). rewrite (at_det _ _ _ _ Hc' Hd'). exists d. split; [exact Hd|].
        destruct X as (_ & _ & _ & X1 & X2 & _). split; auto.
      + apply Quiet.
        { intros m Rm. apply Hne. eapply receives_det; eauto. }
        destruct (Nat.eq_dec p i) as [->|Hnp].
        * rewrite (at_det _ _ _ _ Hc' Hpc'). exists pc. split; [exact Hpc|]. apply kept_eq, S.
        * exists c'. split; [eapply Same; [exact O|]; intros [Y|Y]; congruence|apply kept_refl].
  Qed.
End Step.

Section Chain.
  Variable cf : config.
  Hypothesis Hcf : config_ok cf.

  Lemma carried_dec r : carried_out r \/ ~ carried_out r.
  Proof.
    destruct r as [n|[]|k]; try (right; intros [(? & X)|X]; discriminate); left; [left; eauto|right; reflexivity].
  Qed.

  (** Nothing but a received measurement changes the measurements of a slot. *)
  Lemma executes_tci e cmd loc s r s' : wf cf s -> executes cf e cmd loc s r s' ->
    forall i c', at_slot s' i c' -> live c' ->
      exists c, at_slot s i c /\
        (forall m, carried_out r -> receives cmd loc s i m -> tci_hashed (e_crypto e) m c c') /\
        ((~ carried_out r \/ forall m, ~ receives cmd loc s i m) -> tci_kept c c').
  Proof.
    intros W (c0 & p0 & o0 & c1 & p1 & o1 & H) i c' Hc' Lc'.
    assert (Full : effect cf (e_crypto e) cmd loc s s' -> carried_out r ->
       exists c, at_slot s i c /\
        (forall m, carried_out r -> receives cmd loc s i m -> tci_hashed (e_crypto e) m c c') /\
        ((~ carried_out r \/ forall m, ~ receives cmd loc s i m) -> tci_kept c c')).
    { intros He Hr. destruct (effect_tci cf Hcf (e_crypto e) cmd loc s s' W He i c' Hc' Lc') as (c & Hc & H1 & H2).
      exists c. split; [exact Hc|]. split; [auto|]. intros [N|N]; [contradiction|auto]. }
    pose proof H as H0. apply (command_effect cf _ _ _ _ _ Hcf) in H; [|exact W]. cbn [w_st] in H.
    destruct H as [(n & -> & H)|[N H]]; [apply Full; [exact H|left; eauto]|].
    assert (Part : forall c, at_slot s i c -> forall m, carried_out r -> receives cmd loc s i m -> tci_hashed (e_crypto e) m c c').
    { intros c Hc m Hr R. apply (carried_effect cf Hcf) in H0; [|exact W|exact Hr|eauto]. cbn [w_st] in H0.
      destruct (effect_tci cf Hcf (e_crypto e) cmd loc s s' W H0 i c' Hc' Lc') as (x & Hx & H1 & _).
      rewrite (at_det _ _ _ _ Hc Hx). auto. }
    destruct H as [K|[[-> H]|[(u & -> & H)|(ck & -> & -> & H)]]].
    - exists c'. subst s'. split; [exact Hc'|]. split; [apply Part; exact Hc'|intros _; apply kept_refl].
    - apply Full; [exact H|right; reflexivity].
    - destruct H as (p & pc & pc' & _ & Hf & Hpc & O & Hpc' & S & _).
      destruct (Nat.eq_dec p i) as [->|Hne].
      + exists pc. split; [exact Hpc|]. split; [apply Part; exact Hpc|]. intros _.
        rewrite (at_det _ _ _ _ Hc' Hpc'). apply kept_eq, S.
      + assert (Hc : at_slot s i c').
        { destruct O as (_ & _ & O). unfold at_slot in *. rewrite <- (O i) by exact Hne. exact Hc'. }
        exists c'. split; [exact Hc|]. split; [apply Part; exact Hc|]. intros _. apply kept_refl.
    - destruct (effect_tci cf Hcf (e_crypto e) _ loc s s' W H i c' Hc' Lc') as (x & Hx & _ & H2).
      exists x. split; [exact Hx|]. split; [intros m _ []|]. intros _. apply H2. intros m [].
  Qed.

  Lemma creates_cases e s r s' : creates cf e s r s' ->
    s' = s \/ exists loc, init_spec cf (2 ^ 30) loc s s'.
  Proof.
    intros (c0 & p0 & o0 & c1 & p1 & o1 & H).
    unfold dpe_new in H. mstep H. mstep H; [|mstep H; left; congruence].
      mstep H; [|pose proof (keeps_platform _ _ _ _ E) as [K _]; left; exact K
                |pose proof (keeps_platform _ _ _ _ E) as [K _]; left; exact K].
      pose proof (keeps_platform _ _ _ _ E) as [K _]. cbn [w_st] in K.
      assert (I : forall r1 w1', with_out (e_C e) (e_P e) (repeat 0%N 28)
                  (exec_init cf (e_C e) (e_P e) (e_crypto e) (bit 30) (a mod 2 ^ 32)) w1 = (r1, w1') ->
                w_st w1' = s \/ exists loc, init_spec cf (2 ^ 30) loc s (w_st w1')).
      { intros r1 w1' X. unfold with_out in X.
        match type of X with context [exec_init ?f ?g ?h ?i ?j ?k ?l] =>
          destruct (exec_init f g h i j k l) as [rx wx] eqn:EX end.
        assert (EW : w_st w1' = w_st wx) by (destruct rx; inversion X; reflexivity).
        apply exec_init_inv in EX as [[[K1 _] _]|(sx & bs & Hd & [K1 _])]; cbn [w_st] in *.
        - left. congruence.
        - right. exists (a mod 2 ^ 32)%N. apply init_done_spec in Hd. rewrite EW, K1. rewrite K in Hd. exact Hd. }
      mstep H.
      - mstep H. apply I in E0. rewrite <- W in E0. exact E0.
      - apply I in E0. exact E0.
      - apply I in E0. exact E0.
  Qed.

  (** Creating an instance measures nothing. *)
  Lemma creates_tci e s r s' : wf cf s -> creates cf e s r s' ->
    (forall i, live_at s i -> live_at s' i) /\
    forall i c', at_slot s' i c' -> live c' -> exists c, at_slot s i c /\ tci_kept c c'.
  Proof.
    intros W H. apply creates_cases in H as G. clear H. split.
    { intros i (c & Hc & Lc). destruct G as [->|(loc & k & h & [(old & Hold & Iold) _] & _ & _ & _ & _ & _ & O & _)]; [exists c; auto|].
      exists c. split; [|exact Lc]. unfold at_slot in *. rewrite O; [exact Hc|]. intros ->.
      unfold live in Lc. congruence. }
    intros i c' Hc' Lc'. destruct G as [->|(loc & G)].
    - exists c'. split; [exact Hc'|apply kept_refl].
    - destruct (effect_tci cf Hcf (e_crypto e) (CmdInitCtx (2 ^ 30)) loc s s' W G i c' Hc' Lc') as (c & Hc & _ & K).
      exists c. split; [exact Hc|]. apply K. intros m [].
  Qed.

  Lemma ledger_history (E : env -> Prop) (G : state -> command -> N -> Prop) l s L : ledger cf E G l s L -> history cf E G l s.
  Proof.
    induction 1; [eapply hi_new|eapply hi_create|eapply hi_measured with (sup := sup)|eapply hi_command]; eauto.
  Qed.

  Lemma live_at_dec s i : {live_at s i} + {~ live_at s i}.
  Proof.
    unfold live_at, at_slot. destruct (nth_error (st_contexts s) i) as [c|] eqn:E.
    - destruct (live_dec c) as [Lc|Ic]; [left; eauto|]. right. intros (d & Hd & Ld). injection Hd as <-. contradiction.
    - right. intros (d & Hd & _). discriminate.
  Qed.

  Lemma free_dec s i : free_at s i \/ ~ free_at s i.
  Proof.
    unfold free_at, at_slot. destruct (nth_error (st_contexts s) i) as [c|].
    - destruct (live_dec c) as [Lc|Ic]; [|left; eauto]. right. intros (d & Hd & Id). injection Hd as <-. contradiction.
    - right. intros (d & Hd & _). discriminate.
  Qed.

  Lemma bounded_dec (Q : nat -> Prop) : (forall i, Q i \/ ~ Q i) ->
    forall n, (forall i, Q i -> i < n) -> (exists i, Q i) \/ forall i, ~ Q i.
  Proof.
    intros D n. induction n as [|n IH] in Q, D |- *; intros B.
    - right. intros i Qi. apply B in Qi. lia.
    - destruct (D n) as [Qn|Nn]; [left; eauto|]. apply IH; [exact D|].
      intros i Qi. specialize (B i Qi). destruct (Nat.eq_dec i n); [subst; contradiction|lia].
  Qed.

  Lemma first_dec (Q : nat -> Prop) n : (forall i, Q i \/ ~ Q i) -> (forall i, Q i -> i < n) ->
    (exists i, first_slot Q i) \/ forall i, ~ Q i.
  Proof.
    intros D B. destruct (bounded_dec Q D n B) as [(i & Qi)|N]; [left; eapply first_exists; eauto|right; exact N].
  Qed.

  (** Some slot receives a measurement or none does. *)
  Lemma receives_dec cmd loc s : (exists i m, receives cmd loc s i m) \/ forall i m, ~ receives cmd loc s i m.
  Proof.
    assert (ND : forall h, (exists i, first_slot (names s h loc) i) \/ forall i, ~ names s h loc i).
    { intros h. apply (first_dec _ (length (st_contexts s))); [apply names_dec|].
      intros i (c & Hc & _). eapply at_lt; eauto. }
    destruct cmd; cbn [receives]; try (right; tauto).
    - destruct (N.testbit (dc_flags c) 24).
      + destruct (ND (dc_handle c)) as [(i & Hi)|N]; [left; eauto|]. right. intros i m (_ & [X _]). exact (N i X).
      + destruct (N.testbit (dc_flags c) 23); [right; intros i m (_ & X & _); discriminate|].
        destruct (first_dec (free_at s) (length (st_contexts s))) as [(i & Hi)|N].
        * apply free_dec.
        * intros i (x & Hx & _). eapply at_lt; eauto.
        * left; eauto 6.
        * right. intros i m (_ & _ & [X _]). exact (N i X).
    - destruct (ND (uc_parent_handle c)) as [(p & Hp)|N].
      2:{ right. intros i m (_ & p & x & [X _] & _). exact (N p X). }
      destruct (bounded_dec (fun i => exists x, child_of s p i /\ at_slot s i x /\
                  c_state x = Active /\ tci_type (c_tci x) = uc_tci_type c)) with (n := length (st_contexts s))
        as [(i & x & H1 & H2 & H3 & H4)|N].
      + intros i. unfold child_of, at_slot. destruct (nth_error (st_contexts s) i) as [x|].
        2:{ right. intros (y & _ & Y & _). discriminate. }
        destruct (ctx_state_eqb (c_state x) Active) eqn:A.
        2:{ right. intros (y & _ & Y & Ay & _). injection Y as <-. rewrite Ay in A. discriminate. }
        apply ctx_state_eqb_eq in A.
        destruct (N.eq_dec (tci_type (c_tci x)) (uc_tci_type c)) as [T|T].
        2:{ right. intros (y & _ & Y & _ & Ty). injection Y as <-. contradiction. }
        destruct (Nat.eq_dec (c_parent x) p) as [Ep|Ep].
        2:{ right. intros (y & (z & Z1 & _ & Z2) & _). injection Z1 as <-. contradiction. }
        left. exists x. split; [exists x; unfold live; repeat split; congruence|]. auto.
      + intros i (x & _ & Hx & _). eapply at_lt; eauto.
      + left. exists i, (uc_data c). split; [reflexivity|]. exists p, x. auto 10.
      + right. intros i m (_ & q & x & Hq & Hx). apply (N i). exists x.
        rewrite (first_slot_det _ _ _ Hp Hq). tauto.
  Qed.

  Lemma logs_receive cmd loc s r s' L j m : wf cf s -> carried_out r -> receives cmd loc s j m ->
    logs cmd loc s r s' L (fun i => if live_at_dec s' i then if Nat.eqb i j then L i ++ [m] else L i else []).
  Proof.
    intros W Hr R i. destruct (live_at_dec s' i) as [Li|Ni]; (split; [tauto|]); (split; [|]); try tauto.
    - intros _ n _ Rn. destruct (receives_det cf Hcf _ _ _ _ _ _ _ W R Rn) as [-> ->]. rewrite Nat.eqb_refl. reflexivity.
    - intros _ [X|X]; [contradiction|]. destruct (Nat.eqb_spec i j) as [->|Hne]; [|reflexivity]. exfalso. exact (X m R).
  Qed.

  Lemma logs_quiet cmd loc s r s' L : ~ carried_out r \/ (forall i m, ~ receives cmd loc s i m) ->
    logs cmd loc s r s' L (fun i => if live_at_dec s' i then L i else []).
  Proof.
    intros [N|N] i; destruct (live_at_dec s' i); (split; [tauto|]); (split; [|]); try tauto.
    intros _ m _ R. exfalso. exact (N _ _ R).
  Qed.

  Lemma logs_ex cmd loc s r s' L : wf cf s -> exists L', logs cmd loc s r s' L L'.
  Proof.
    intros W. destruct (receives_dec cmd loc s) as [(j & m & R)|N], (carried_dec r) as [Hr|Nr];
      eexists; eauto using logs_receive, logs_quiet.
  Qed.

  (** Every history has a ledger. *)
  Theorem ledger_ex (E : env -> Prop) (G : state -> command -> N -> Prop) l s :
    history cf E G l s -> exists L, ledger cf E G l s L.
  Proof.
    induction 1 as [sup fl Hs|l s e r s' H (L & IH) He Hc HA|sup fl e ty m r s' He Hs Hty Hm H
                   |l s e cmd loc r s' Hh (L & IH) He Wc Wl HA H].
    - exists (fun _ => []). constructor; auto.
    - exists L. econstructor; eauto.
    - destruct r as [[]|er|k].
      + exists (fun i => if Nat.eqb i 0 then [m] else []). eapply le_measured with (sup := sup); eauto; try congruence.
        intros i Hi. destruct (Nat.eqb_spec i 0); [contradiction|reflexivity].
      + exists (fun _ => []). eapply le_measured with (sup := sup); eauto. congruence.
      + exists (fun _ => []). eapply le_measured with (sup := sup); eauto. congruence.
    - destruct (logs_ex cmd loc s r s' L (history_wf cf Hcf _ _ _ _ Hh)) as (L' & HL).
      exists L'. econstructor; eauto.
  Qed.

  Lemma last_snoc (A : Type) (l : list A) x d : last (l ++ [x]) d = x.
  Proof. induction l as [|y l IH]; [reflexivity|]. cbn [app last]. rewrite IH. destruct (l ++ [x]) eqn:E; [|reflexivity]. destruct l; discriminate. Qed.

  (** The ledger explains the stored measurements. *)
  Theorem ledger_chain (E : env -> Prop) (G : state -> command -> N -> Prop) l s L :
    ledger cf E G l s L ->
    forall i, (~ live_at s i -> L i = []) /\
      forall c, at_slot s i c -> live c ->
        tci_chain (tci_size cf) (some_hash E) (L i) (tci_cumulative (c_tci c)) /\
        tci_current (c_tci c) = last (L i) (repeat 0%N (tci_size cf)).
  Proof.
    assert (New : forall sup fl i, ~ live_at (state_new cf sup fl) i).
    { intros sup fl i (c & Hc & Lc). apply (new_slot cf sup fl) in Hc as [_ ->]. apply Lc. reflexivity. }
    (* the measurements of a slot that was free are all zero *)
    assert (Old : forall s0 L0, wf cf s0 ->
      (forall i, (~ live_at s0 i -> L0 i = []) /\ forall c, at_slot s0 i c -> live c ->
        tci_chain (tci_size cf) (some_hash E) (L0 i) (tci_cumulative (c_tci c)) /\
        tci_current (c_tci c) = last (L0 i) (repeat 0%N (tci_size cf))) ->
      forall i c, at_slot s0 i c ->
        tci_chain (tci_size cf) (some_hash E) (L0 i) (tci_cumulative (c_tci c)) /\
        tci_current (c_tci c) = last (L0 i) (repeat 0%N (tci_size cf))).
    { intros s0 L0 W IH i c Hc. destruct (IH i) as [I1 I2]. destruct (live_dec c) as [Lc|Ic]; [apply I2; auto|].
      destruct (so_free _ _ _ (wf_slot _ _ W _ _ Hc) Ic) as (_ & B & _). rewrite B, I1.
      - cbn. split; [constructor|reflexivity].
      - intros (d & Hd & Ld). rewrite (at_det _ _ _ _ Hd Hc) in Ld. contradiction. }
    induction 1 as [sup fl L Hs HL|l s e r s' L H IH He Hc HA|sup fl e ty m r s' L He Hs Hty Hm H H1 H2 H3
                   |l s e cmd loc r s' L L' Hh IH He Wc Wl HA H HL].
    - intros i. split; [auto|]. intros c Hc Lc. exfalso. apply (New sup fl i). exists c; auto.
    - pose proof (history_wf cf Hcf _ _ _ _ (ledger_history _ _ _ _ _ H)) as W.
      intros i. split.
      + intros N. apply IH. intros Li. apply N. eapply (creates_tci e s r s' W Hc); exact Li.
      + intros c' Hc' Lc'. destruct (proj2 (creates_tci e s r s' W Hc) i c' Hc' Lc') as (c & Hx & K1 & K2).
        rewrite K1, K2. eapply Old; eauto.
    - destruct H as (c & p & out & c' & p' & out' & H).
      apply (dpe_new_auto_init_fresh cf e Hcf sup fl) in H; [|reflexivity]. cbn [w_st] in H.
      assert (LZ : r <> Ok tt -> forall i, L i = []).
      { intros N i. destruct (Nat.eq_dec i 0) as [->|Hi]; auto. }
      destruct H as [[-> N]|(a & q & _ & _ & H)].
      + intros i. split; [auto|]. intros x Hx Lx. exfalso. apply (New sup fl i). exists x; auto.
      + cbv zeta in H.
        assert (At : forall k i x, at_slot (auto_state cf sup fl k) i x -> live x -> i = 0 /\ x = k).
        { intros k i x Hx Lx. unfold auto_state in Hx. apply at_put_iff in Hx as [(<- & _ & ->)|[Hne Hx]]; [auto|].
          exfalso. cbn in Hx. apply (new_slot cf sup fl) in Hx as [_ ->]. apply Lx; reflexivity. }
        destruct H as [[N ->]|[-> (d & Hd & Hld & ->)]]; intros i.
        * split; [auto|]. intros x Hx Lx. destruct (At _ _ _ Hx Lx) as [-> ->]. rewrite (LZ N 0). cbn. split; [constructor|reflexivity].
        * split.
          { intros Ni. destruct (Nat.eq_dec i 0) as [->|Hi]; [|auto]. exfalso. apply Ni.
            eexists. split; [apply at_put_iff; left; split; [reflexivity|]; split; [|reflexivity]|discriminate].
            cbn. rewrite repeat_length. unfold config_ok in Hcf. lia. }
          intros x Hx Lx. destruct (At _ _ _ Hx Lx) as [-> ->]. rewrite (H1 eq_refl). cbn. split; [|reflexivity].
          apply (tc_snoc _ _ [] m (repeat 0%N (tci_size cf))); [constructor|].
          exists e. split; [exact He|]. apply hashed_hash_of in Hd. exact Hd.
    - pose proof (history_wf cf Hcf _ _ _ _ (ledger_history _ _ _ _ _ Hh)) as W.
      intros i. destruct (HL i) as (L1 & L2 & L3). split; [exact L1|].
      intros c' Hc' Lc'. assert (Lv : live_at s' i) by (exists c'; auto).
      destruct (executes_tci e cmd loc s r s' W H i c' Hc' Lc') as (c & Hc & H1 & H2).
      destruct (Old _ _ W IH i c Hc) as [C1 C2].
      destruct (carried_dec r) as [Hr|Nr].
      + destruct (receives_dec cmd loc s) as [(j & m & R)|N].
        * destruct (Nat.eq_dec j i) as [->|Hne].
          { rewrite (L2 Lv m Hr R). destruct (H1 m Hr R) as [K1 K2]. rewrite last_snoc. split; [|exact K2].
            eapply tc_snoc; [exact C1|]. exists e. auto. }
          assert (Nn : forall n, ~ receives cmd loc s i n).
          { intros n Rn. apply Hne. eapply receives_det; eauto. }
          rewrite (L3 Lv (or_intror Nn)). destruct (H2 (or_intror Nn)) as [-> ->]. auto.
        * rewrite (L3 Lv (or_intror (N i))). destruct (H2 (or_intror (N i))) as [-> ->]. auto.
      + rewrite (L3 Lv (or_introl Nr)). destruct (H2 (or_introl Nr)) as [-> ->]. auto.
  Qed.

  (** Every entry of the ledger was presented by an event that was carried out. *)
  Definition presented (ev : event) (m : bytes) : Prop :=
    match ev with
    | EvNew _ => False
    | EvNewMeasured _ m' r => r = Ok tt /\ m = m'
    | EvCommand (CmdDeriveContext d) _ r => carried_out r /\ m = dc_data d
    | EvCommand (CmdUpdateContextMeasurement u) _ r => carried_out r /\ m = uc_data u
    | EvCommand _ _ _ => False
    end.

  Theorem ledger_presented (E : env -> Prop) (G : state -> command -> N -> Prop) l s L :
    ledger cf E G l s L -> forall i m, In m (L i) -> exists ev, In ev l /\ presented ev m.
  Proof.
    induction 1 as [sup fl L Hs HL|l s e r s' L H IH He Hc HA|sup fl e ty m0 r s' L He Hs Hty Hm H H1 H2 H3
                   |l s e cmd loc r s' L L' Hh IH He Wc Wl HA H HL]; intros i m Hin.
    - rewrite HL in Hin. destruct Hin.
    - destruct (IH i m Hin) as (ev & H1 & H2). exists ev. split; [right; exact H1|exact H2].
    - destruct (Nat.eq_dec i 0) as [->|Hi]; [|rewrite H3 in Hin by exact Hi; destruct Hin].
      eexists. split; [left; reflexivity|]. cbn [presented].
      destruct r as [[]|er|k]; [|rewrite H2 in Hin by discriminate; destruct Hin|rewrite H2 in Hin by discriminate; destruct Hin].
      rewrite (H1 eq_refl) in Hin. destruct Hin as [<-|[]]. auto.
    - destruct (HL i) as (L1 & L2 & L3). destruct (live_at_dec s' i) as [Lv|Nv]; [|rewrite (L1 Nv) in Hin; destruct Hin].
      assert (Old : In m (L i) -> exists ev, In ev (EvCommand cmd loc r :: l) /\ presented ev m).
      { intros X. destruct (IH i m X) as (ev & H4 & H5). exists ev. split; [right; exact H4|exact H5]. }
      destruct (carried_dec r) as [Hr|Nr]; [|rewrite (L3 Lv (or_introl Nr)) in Hin; auto].
      destruct (receives_dec cmd loc s) as [(j & n & R)|N]; [|rewrite (L3 Lv (or_intror (N i))) in Hin; auto].
      destruct (Nat.eq_dec j i) as [->|Hne].
      + rewrite (L2 Lv n Hr R) in Hin. apply in_app_iff in Hin as [Hin|[<-|[]]]; [auto|].
        eexists. split; [left; reflexivity|]. destruct cmd; cbn [receives] in R; try contradiction; cbn [presented]; tauto.
      + assert (Nn : forall n, ~ receives cmd loc s i n).
        { intros x Rx. apply Hne.
          eapply (receives_det cf Hcf cmd loc s); [|exact R|exact Rx]. eapply history_wf; eauto using ledger_history. }
        rewrite (L3 Lv (or_intror Nn)) in Hin. auto.
  Qed.

  (** With one hash function the chain is a fold. *)
  Lemma chain_fold t (f : bytes -> bytes) (HF : list bytes -> bytes -> Prop) ms d :
    (forall x m y, HF [x; m] y -> y = f (x ++ m)) -> tci_chain t HF ms d ->
    d = fold_left (fun x m => f (x ++ m)) ms (repeat 0%N t).
  Proof.
    intros Hf. induction 1 as [|ms m x d _ IH Hx]; [reflexivity|].
    rewrite fold_left_app. cbn [fold_left]. apply Hf in Hx. rewrite Hx, IH. reflexivity.
  Qed.
End Chain.
