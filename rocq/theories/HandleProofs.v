(** HandleProofs.v -- proofs about handles (C01-C03, C10, C39). *)
From Verif Require Import Base Errors Types StateOps Env Wire Instance Commands Lib Spec Exec
  Effects Forest DestroyProofs History Contract Steps Reach Denials CommandSpecs.
Local Open Scope nat_scope.
Open Scope dpe_scope.

(** No context can be addressed by [h] any more. *)
Definition nowhere (s : state) (h : bytes) : Prop := forall loc i, ~ names s h loc i.

(** The random source never answers [h]. *)
Definition never_draws {C} (co : crypto_ops C) (h : bytes) : Prop :=
  forall c b c', co_rand_bytes co 16 c = (inl b, c') -> to_buf 16 b <> h.

Lemma nowhere_intro (Q : nat -> Prop) s s' h :
  (forall j, Q j \/ ~ Q j) ->
  (forall j, ~ Q j -> nth_error (st_contexts s') j = nth_error (st_contexts s) j) ->
  (forall j c, ~ Q j -> at_slot s j c -> c_state c = Active -> c_handle c <> h) ->
  (forall j c, Q j -> at_slot s' j c -> c_state c = Active -> c_handle c <> h) ->
  nowhere s' h.
Proof.
  intros D E H1 H2 loc i (c & Hc & Ha & _ & Hh). destruct (D i) as [q|q].
  - eapply H2; eauto.
  - eapply (H1 i c); eauto. unfold at_slot in *. rewrite <- E; auto.
Qed.

Lemma eq_dec_or (i j : nat) : i = j \/ i <> j.
Proof. lia. Qed.

Lemma refreshed_not s i c h' : at_slot s i c -> c_handle c <> repeat 0%N 16 -> refreshed s c h' -> h' <> c_handle c.
Proof.
  intros Hc Hn [[E _]|(_ & _ & _ & F)]; [contradiction|]. intros X. apply (F i c Hc). symmetry; exact X.
Qed.

Section Handles.
  Variable cf : config.
  Hypothesis Hcf : config_ok cf.

  Lemma effect_consumes {C} (co : crypto_ops C) cmd loc s s' h :
    wf cf s -> unique_handles s -> effect cf co cmd loc s s' -> presents cmd h -> h <> repeat 0%N 16 ->
    (forall u, cmd <> CmdUpdateContextMeasurement u) -> nowhere s' h.
  Proof.
    intros W U He Hp Hn Nu.
    (* other contexts do not carry [h] *)
    assert (O : forall p j c, first_slot (names s h loc) p -> p <> j -> at_slot s j c -> c_state c = Active -> c_handle c <> h).
    { intros p j c [(pc & Hpc & Ha & _ & Hh) _] Hj Hc Hac X. apply Hj.
      apply (U p j pc c); auto; congruence. }
    destruct cmd; cbn [effect presents] in *; try contradiction.
    - subst h. destruct (N.testbit (dc_flags c) 24); [|destruct (N.testbit (dc_flags c) 23)].
      + destruct He as (i & x & x' & (Hf & Hx & _) & _ & _ & _ & (_ & _ & Ho) & Hx' & _ & R).
        destruct (Hf) as [(y & Hy & _ & _ & Hh) _]. rewrite (at_det _ _ _ _ Hy Hx) in *.
        apply (nowhere_intro (eq i) s); auto using eq_dec_or.
        * intros j d Hj Hd Ad. eapply O; eauto.
        * intros j d <- Hd Ad. rewrite (at_det _ _ _ _ Hd Hx'). rewrite <- Hh. eapply refreshed_not; eauto; congruence.
      + destruct He as (p & pc & (Hf & Hpc & _) & _ & He).
        destruct (Hf) as [(y & Hy & Ay & _ & Hh) _]. rewrite (at_det _ _ _ _ Hy Hpc) in *.
        destruct (N.testbit (dc_flags c) 29); [|destruct (N.eqb (c_children pc) 0)].
        * destruct He as (pc' & (_ & _ & Ho) & Hpc' & SB & R).
          apply (nowhere_intro (eq p) s); auto using eq_dec_or.
          -- intros j d Hj Hd Ad. eapply O; eauto.
          -- intros j d <- Hd Ad. rewrite (at_det _ _ _ _ Hd Hpc'). rewrite <- Hh. eapply refreshed_not; eauto; congruence.
        * intros loc' i (d & Hd & Ad & _ & Hhd).
          destruct (pruned_back cf Hcf s p s') with (i := i) (c' := d) as (d0 & Hd0 & SB & ND); auto.
          { exists pc; split; [exact Hpc|unfold live; congruence]. }
          { unfold live; congruence. }
          destruct SB as (B1 & _ & _ & _ & _ & B6 & _).
          apply (O p i d0); auto; [|congruence|congruence]. intros ->. apply ND. constructor.
        * destruct He as (pc' & (_ & _ & Ho) & Hpc' & SR & _).
          apply (nowhere_intro (eq p) s); auto using eq_dec_or.
          -- intros j d Hj Hd Ad. eapply O; eauto.
          -- intros j d <- Hd Ad. rewrite (at_det _ _ _ _ Hd Hpc') in *. congruence.
      + destruct He as (p & pc & pc' & k & h' & dg & (Hf & Hpc & _) & Hk & _ & (_ & _ & Ho) & _ & _ & Hh' & Hch & Hpc' & _ & _ & _ & Hret).
        destruct (Hf) as [(y & Hy & Ay & _ & Hh) _]. rewrite (at_det _ _ _ _ Hy Hpc) in *.
        apply (nowhere_intro (fun j => j = p \/ j = k) s); auto.
        * intros j. destruct (Nat.eq_dec j p), (Nat.eq_dec j k); tauto.
        * intros j d Hj Hd Ad. apply (O p j d); auto.
        * intros j d [->| ->] Hd Ad.
          -- rewrite (at_det _ _ _ _ Hd Hpc') in *. destruct (N.testbit (dc_flags c) 29).
             ++ rewrite <- Hh. eapply refreshed_not; eauto; [congruence|apply Hret].
             ++ destruct Hret; congruence.
          -- rewrite (at_det _ _ _ _ Hd Hch). cbn [c_handle]. destruct (N.testbit (dc_flags c) 28); [congruence|].
             destruct Hh' as (_ & _ & F). intros X. apply (F p pc Hpc). congruence.
    - destruct He as (h0 & Hp0 & i & x & x' & Hf & Hx & (_ & _ & Ho) & Hx' & _ & R).
      assert (h0 = h) by (destruct c; congruence). subst h0.
      destruct (Hf) as [(y & Hy & _ & _ & Hh) _]. rewrite (at_det _ _ _ _ Hy Hx) in *.
      apply (nowhere_intro (eq i) s); auto using eq_dec_or.
      + intros j d Hj Hd Ad. eapply O; eauto.
      + intros j d <- Hd Ad. rewrite (at_det _ _ _ _ Hd Hx'). rewrite <- Hh. eapply refreshed_not; eauto; congruence.
    - destruct He as (h0 & Hp0 & i & x & x' & Hf & Hx & (_ & _ & Ho) & Hx' & _ & R).
      assert (h0 = h) by (destruct c; congruence). subst h0.
      destruct (Hf) as [(y & Hy & _ & _ & Hh) _]. rewrite (at_det _ _ _ _ Hy Hx) in *.
      apply (nowhere_intro (eq i) s); auto using eq_dec_or.
      + intros j d Hj Hd Ad. eapply O; eauto.
      + intros j d <- Hd Ad. rewrite (at_det _ _ _ _ Hd Hx'). rewrite <- Hh. eapply refreshed_not; eauto; congruence.
    - subst h. destruct He as (i & x & x' & Hf & Hx & _ & (_ & _ & Ho) & Hx' & _ & R1 & R2).
      destruct (Hf) as [(y & Hy & _ & _ & Hh) _]. rewrite (at_det _ _ _ _ Hy Hx) in *.
      apply (nowhere_intro (eq i) s); auto using eq_dec_or.
      + intros j d Hj Hd Ad. eapply O; eauto.
      + intros j d <- Hd Ad. rewrite (at_det _ _ _ _ Hd Hx').
        destruct (N.testbit flags 31); [destruct (R1 eq_refl) as [-> _]; congruence|].
        destruct (R2 eq_refl) as (_ & _ & F). intros X. apply (F i x Hx). congruence.
    - subst h. destruct He as (t & Hf & Hpr).
      destruct (Hf) as [(y & Hy & Ay & _ & Hh) _].
      intros loc' i (d & Hd & Ad & _ & Hhd).
      destruct (pruned_back cf Hcf s t s') with (i := i) (c' := d) as (d0 & Hd0 & SB & ND); auto.
      { exists y; split; [exact Hy|unfold live; congruence]. }
      { unfold live; congruence. }
      destruct SB as (B1 & _ & _ & _ & _ & B6 & _).
      apply (O t i d0); auto; [|congruence|congruence]. intros ->. apply ND. constructor.
    - exfalso. eapply Nu; reflexivity.
  Qed.

  (** UpdateContextMeasurement: [h] is gone unless the child was given it. *)
  Lemma update_consumes {C} (co : crypto_ops C) u loc s s' :
    wf cf s -> unique_handles s -> update_spec cf co u loc s s' ->
    nowhere s' (uc_parent_handle u) \/
    exists i c c', at_slot s i c /\ at_slot s' i c' /\ c_handle c' = uc_parent_handle u /\
                   c_handle c <> uc_parent_handle u /\ c_handle c <> repeat 0%N 16.
  Proof.
    intros W U (p & pc & pc' & i & x & x' & Hn & Hf & Hpc & Hx & _ & Ax & _ & Hne & (_ & _ & Ho) & Hpc' & _ & (_ & _ & F) & Hx' & _ & K1 & K2).
    set (h := uc_parent_handle u) in *.
    assert (O : forall j c, p <> j -> at_slot s j c -> c_state c = Active -> c_handle c <> h).
    { intros j c Hj Hc Hac X. destruct Hf as [(y & Hy & Ay & _ & Hh) _]. apply Hj.
      apply (U p j y c); auto; congruence. }
    pose proof (O i x (not_eq_sym Hne) Hx Ax) as Hxh.
    destruct (list_eq_dec N.eq_dec (c_handle x') h) as [E|E].
    - right. exists i, x, x'. repeat split; auto. intros D. specialize (K1 D). congruence.
    - left. apply (nowhere_intro (fun j => j = p \/ j = i) s); auto.
      + intros j. destruct (Nat.eq_dec j p), (Nat.eq_dec j i); tauto.
      + intros j d Hj Hd Ad. apply (O j d); auto.
      + intros j d [->| ->] Hd Ad.
        * rewrite (at_det _ _ _ _ Hd Hpc'). destruct Hf as [(y & Hy & _ & _ & Hh) _]. rewrite <- Hh. intros X.
          apply (F p y Hy). congruence.
        * rewrite (at_det _ _ _ _ Hd Hx'). exact E.
  Qed.

  (** Using a default handle leaves it valid. *)
  Definition leaves_default (cmd : command) : Prop :=
    match cmd with
    | CmdDeriveContext d => N.testbit (dc_flags d) 24 = true \/ N.testbit (dc_flags d) 29 = true
    | CmdCertifyKey _ | CmdSign _ | CmdGetProfile | CmdInitCtx _ | CmdGetCertificateChain _ _
    | CmdUpdateContextMeasurement _ => True
    | CmdRotateCtx _ _ | CmdDestroyCtx _ => False
    end.

  Lemma names_frame s s' h loc i (Q : nat -> Prop) :
    (forall j, ~ Q j -> nth_error (st_contexts s') j = nth_error (st_contexts s) j) ->
    ~ Q i -> names s h loc i -> names s' h loc i.
  Proof.
    intros E Hq (c & Hc & K). exists c. split; [|exact K]. unfold at_slot in *. rewrite E; auto.
  Qed.

  Lemma refreshed_default s c h' : c_handle c = repeat 0%N 16 -> refreshed s c h' -> h' = repeat 0%N 16.
  Proof. intros E [[_ H]|[H _]]; [exact H|contradiction]. Qed.

  Lemma effect_default {C} (co : crypto_ops C) cmd loc s s' loc' i :
    wf cf s -> effect cf co cmd loc s s' -> leaves_default cmd ->
    names s (repeat 0%N 16) loc' i -> names s' (repeat 0%N 16) loc' i.
  Proof.
    intros W He Hl Hnm. pose proof Hnm as (x & Hx & Ax & Lx & Hhx).
    assert (SB : forall (c' : context), same_but_handle x c' -> refreshed s x (c_handle c') ->
              at_slot s' i c' -> names s' (repeat 0%N 16) loc' i).
    { intros c' (_ & _ & S3 & _ & _ & S6 & _) R H. exists c'. repeat split; auto; [congruence|congruence|].
      eapply refreshed_default; eauto. }
    destruct cmd; cbn [effect leaves_default] in *; try contradiction.
    - subst s'. exact Hnm.
    - destruct He as (k & h & [(y & Hy & Iy) _] & _ & _ & _ & _ & _ & Ho & _).
      apply (names_frame s s' _ _ _ (fun j => j = k)); auto. intros ->. rewrite (at_det _ _ _ _ Hx Hy) in *. congruence.
    - destruct (N.testbit (dc_flags c) 24) eqn:B24; [|destruct (N.testbit (dc_flags c) 23) eqn:B23].
      + destruct He as (j & y & y' & (Hf & Hy & _) & _ & _ & _ & (_ & _ & Ho) & Hy' & (ID & ST & _) & R).
        destruct (Nat.eq_dec i j) as [->|Hne]; [|eapply (names_frame s s' _ _ _ (eq j)); eauto].
        rewrite (at_det _ _ _ _ Hy Hx) in *. exists y'. repeat split; auto; [congruence| |eapply refreshed_default; eauto].
        destruct ID as (_ & _ & ID & _). congruence.
      + destruct Hl as [X|B29]; [discriminate|]. destruct He as (p & pc & (Hf & Hpc & _) & _ & He). rewrite B29 in He.
        destruct He as (pc' & (_ & _ & Ho) & Hpc' & S & R).
        destruct (Nat.eq_dec i p) as [->|Hne]; [|eapply (names_frame s s' _ _ _ (eq p)); eauto].
        rewrite (at_det _ _ _ _ Hpc Hx) in *. eapply SB; eauto.
      + destruct Hl as [X|B29]; [discriminate|].
        destruct He as (p & pc & pc' & k & h' & dg & (Hf & Hpc & _) & Hk & _ & (_ & _ & Ho) & _ & _ & _ & _ & Hpc' & ID & _ & _ & Hret).
        rewrite B29 in Hret. destruct Hret as [A R].
        destruct (Nat.eq_dec i p) as [->|Hne].
        * rewrite (at_det _ _ _ _ Hpc Hx) in *. exists pc'. repeat split; auto; [|eapply refreshed_default; eauto].
          destruct ID as (_ & _ & ID & _). congruence.
        * eapply (names_frame s s' _ _ _ (fun j => j = p \/ j = k)); eauto. intros [X| ->]; [contradiction|].
          destruct Hk as [(y & Hy & Iy) _]. rewrite (at_det _ _ _ _ Hx Hy) in *. congruence.
    - destruct He as (h0 & _ & j & y & y' & Hf & Hy & (_ & _ & Ho) & Hy' & S & R).
      destruct (Nat.eq_dec i j) as [->|Hne]; [|eapply (names_frame s s' _ _ _ (eq j)); eauto].
      rewrite (at_det _ _ _ _ Hy Hx) in *. eapply SB; eauto.
    - destruct He as (h0 & _ & j & y & y' & Hf & Hy & (_ & _ & Ho) & Hy' & S & R).
      destruct (Nat.eq_dec i j) as [->|Hne]; [|eapply (names_frame s s' _ _ _ (eq j)); eauto].
      rewrite (at_det _ _ _ _ Hy Hx) in *. eapply SB; eauto.
    - subst s'. exact Hnm.
    - destruct He as (p & pc & pc' & j & y & y' & Hn & Hf & Hpc & Hy & _ & Ay & _ & Hne & (_ & _ & Ho) & Hpc' & _ & _ & Hy' & (ID & ST & _) & K1 & K2).
      destruct (Nat.eq_dec i j) as [->|Hij].
      + rewrite (at_det _ _ _ _ Hy Hx) in *. exists y'. repeat split; auto; [congruence|].
        destruct ID as (_ & _ & ID & _). congruence.
      + destruct (Nat.eq_dec i p) as [->|Hip].
        * exfalso. destruct Hf as [(z & Hz & _ & _ & Hhz) _]. rewrite (at_det _ _ _ _ Hz Hx) in *. congruence.
        * eapply (names_frame s s' _ _ _ (fun j0 => j0 = p \/ j0 = j)); eauto. tauto.
  Qed.
End Handles.

(** ** Drawing a handle *)
Section Draw.
  Variables C P : Type.
  Variable co : crypto_ops C.

  (** [draws c l r c']: successive requests to the random source answered the
      values [l] (in order) and then, if [r] is given, the error [r]. *)
  Inductive draws : C -> list bytes -> option crypto_error -> C -> Prop :=
  | draws_none c : draws c [] None c
  | draws_error c er c' : co_rand_bytes co 16 c = (inr er, c') -> draws c [] (Some er) c'
  | draws_value c b l r c1 c2 :
      co_rand_bytes co 16 c = (inl b, c1) -> draws c1 l r c2 -> draws c (to_buf 16 b :: l) r c2.

  Definition taken (s : state) (h : bytes) : Prop :=
    h = repeat 0%N 16 \/ exists i c, at_slot s i c /\ c_handle c = h.

  Definition drawn_handle (n : nat) (s : state) (c : C) (r : result bytes) (c' : C) : Prop :=
    exists l e, draws c l e c' /\
      match r with
      | Ok h => e = None /\ exists l0, l = l0 ++ [h] /\ length l <= n /\ Forall (taken s) l0 /\ ~ taken s h
      | Err er =>
          Forall (taken s) l /\
          ((exists ce, e = Some ce /\ er = CryptoErr ce /\ length l < n) \/
           (e = None /\ length l = n /\ er = InternalError HandleGenerationExhausted))
      | Crash _ => False
      end.

  Lemma gen_loop_drawn n : forall w r w',
    gen_handle_loop C P co n w = (r, w') ->
    w_st w' = w_st w /\ w_p w' = w_p w /\ w_out w' = w_out w /\
    drawn_handle n (w_st w) (w_c w) r (w_c w').
  Proof.
    induction n as [|n IH]; cbn [gen_handle_loop]; intros w r w' H.
    - apply fail_inv in H as [-> ->]. repeat split. exists [], None. split; [constructor|].
      split; [constructor|]. right. auto.
    - unfold bind at 1, crypto in H. change handle_size with 16 in H.
      destruct (co_rand_bytes co 16 (w_c w)) as [[b|er] c1] eqn:R.
      + rewrite bind_get_st in H. cbn [w_st] in H.
        destruct (negb (handle_is_default (to_buf 16 b)) &&
                  negb (existsb (fun c => handle_eqb (c_handle c) (to_buf 16 b)) (st_contexts (w_st w))))%bool eqn:B.
        * apply ret_inv in H as [-> ->]. cbn [w_st w_p w_out w_c]. repeat split.
          exists [to_buf 16 b], None. split; [econstructor; [exact R|constructor]|]. split; [reflexivity|].
          exists []. split; [reflexivity|]. split; [cbn; lia|]. split; [constructor|].
          apply andb_true_iff in B as [B1 B2]. apply negb_true_iff in B1, B2.
          apply handle_is_default_neq in B1. intros [X|(i & c & Hc & X)]; [contradiction|].
          assert (existsb (fun c => handle_eqb (c_handle c) (to_buf 16 b)) (st_contexts (w_st w)) = true); [|congruence].
          apply existsb_exists. exists c. split; [eapply nth_error_In; eauto|]. apply handle_eqb_eq; exact X.
        * apply IH in H. cbn [w_st w_p w_out w_c] in H. destruct H as (-> & -> & -> & l & e & D & H).
          repeat split. exists (to_buf 16 b :: l), e. split; [econstructor; eauto|].
          assert (T : taken (w_st w) (to_buf 16 b)).
          { apply andb_false_iff in B as [B|B]; apply negb_false_iff in B.
            - left. apply handle_is_default_eq in B. exact B.
            - right. apply existsb_exists in B as (c & Hin & B). apply handle_eqb_eq in B.
              apply In_nth_error in Hin as (i & Hi). eauto. }
          destruct r as [h|er|k]; [| |exact H].
          -- destruct H as (-> & l0 & -> & Hl & Ht & Hf). split; [reflexivity|].
             exists (to_buf 16 b :: l0). split; [reflexivity|]. split; [cbn [length]; lia|].
             split; [constructor; assumption|exact Hf].
          -- destruct H as (Ht & H). split; [constructor; assumption|]. cbn [length].
             destruct H as [(ce & -> & -> & Hl)|(-> & Hl & ->)]; [left; exists ce; repeat split; lia|right; repeat split; lia].
      + inversion H; subst. cbn [w_st w_p w_out w_c]. repeat split. exists [], (Some er).
        split; [constructor; exact R|]. split; [constructor|]. left. exists er. repeat split; cbn; lia.
  Qed.
End Draw.
