(** Reach.v -- invariants of everything reachable by histories. *)
From Coq Require Import Relations.
From Verif Require Import Base Errors Types StateOps Env Wire Instance Commands Lib Spec Exec
  Effects Forest DestroyProofs History Steps.
Local Open Scope nat_scope.

Section Invariants.
  Variable cf : config.
  Hypothesis Hcf : config_ok cf.
  Variable E : env -> Prop.
  Variable G : state -> command -> N -> Prop.
  Variable OI : state -> N -> Prop.
  Variable I : state -> Prop.

  Definition good_change (e : env) : state -> state -> Prop :=
    change cf (hashed (e_C e) (e_P e) (e_crypto e)) (no_repeat (e_crypto e)) OI.

  Hypothesis HG : forall s cmd loc, G s cmd loc -> init_allowed OI s cmd loc.
  Hypothesis I_new : forall sup fl, I (state_new cf sup fl).
  Hypothesis I_auto : forall sup fl loc ty d m,
    I (auto_state cf sup fl (auto_context loc ty d m)).
  Hypothesis I_step : forall e s s', E e -> wf cf s -> I s -> good_change e s s' -> I s'.

  Lemma changes_inv e s s' :
    E e -> clos_refl_trans state (good_change e) s s' -> wf cf s -> I s -> wf cf s' /\ I s'.
  Proof.
    intros He H. induction H as [x y H|x|x y z _ IH1 _ IH2]; intros W Ix.
    - split; [eapply change_wf; eauto|eapply I_step; eauto].
    - auto.
    - destruct IH1; auto.
  Qed.

  Lemma wf_auto sup fl loc ty d m :
    u32 loc -> u32 ty -> byte_string (tci_size cf) d -> byte_string (tci_size cf) m ->
    wf cf (auto_state cf sup fl (auto_context loc ty d m)).
  Proof.
    intros Hl Ht Hd Hm. unfold auto_state.
    apply (wf_new_root cf OI Hcf _ 0 _ (ctx_new cf)); try reflexivity.
    - apply wf_set_init. apply wf_new.
    - apply (new_slot cf sup fl). split; [destruct Hcf; lia|reflexivity].
    - constructor; cbn; try assumption; try reflexivity; try discriminate.
      + apply default_bytes.
      + congruence.
    - intros _. split; [reflexivity|]. intros j c Hc Lc. exfalso.
      apply (new_slot cf sup fl) in Hc as [_ ->]. apply Lc; reflexivity.
  Qed.

  Theorem history_inv l s : history cf E G l s -> wf cf s /\ I s.
  Proof.
    induction 1 as [sup fl Hs|l s e r s' _ [W IHI] He H HA|sup fl e ty m r s' He Hs Hty Hm H
                   |l s e cmd loc r s' _ [W IHI] He Wc Wl HA H].
    - split; [apply wf_new|apply I_new].
    - destruct H as (c & p & out & c' & p' & out' & H).
      apply (dpe_new_changes cf e OI) in H.
      + eapply changes_inv; eauto.
      + intros loc. apply HG. apply HA.
    - destruct H as (c & p & out & c' & p' & out' & H).
      apply (dpe_new_auto_init_fresh cf e Hcf sup fl) in H; [|reflexivity]. cbn [w_st] in H.
      assert (Z := zero_bytes (tci_size cf)).
      destruct H as [[-> _]|(a & q & _ & _ & H)]; [split; [apply wf_new|apply I_new]|]. cbv zeta in H.
      assert (Hu : u32 (a mod 2 ^ 32)) by (apply N.mod_lt; discriminate).
      destruct H as [[_ ->]|[_ (d & Hd & Hld & ->)]]; (split; [|apply I_auto]); apply wf_auto; auto.
      + reflexivity.
      + split; [exact Hld|]. eapply hashed_bytes; eauto.
    - destruct H as (c & p & out & c' & p' & out' & H).
      apply (exec_command_changes cf e Hcf OI) in H; auto.
      eapply changes_inv; eauto.
  Qed.
End Invariants.

Definition anywhere (s : state) (loc : N) : Prop := True.

Section Reachable.
  Variable cf : config.
  Hypothesis Hcf : config_ok cf.

  Theorem history_wf E G l s : history cf E G l s -> wf cf s.
  Proof.
    intros H. apply (history_inv cf Hcf E G anywhere (fun _ => True)) in H; try tauto.
    intros s0 cmd loc _ f _. right; exact Logic.I.
  Qed.

  Theorem reachable_wf s : reachable cf s -> wf cf s.
  Proof. intros (l & H). eapply history_wf; eauto. Qed.

  (** ** Handles are unique *)
  Definition unique_handles (s : state) : Prop :=
    forall i j c d, at_slot s i c -> at_slot s j d -> c_state c = Active -> c_state d = Active ->
      c_handle c = c_handle d -> c_handle c <> repeat 0%N 16 -> i = j.

  Lemma gen_not_stored s h i c : gen_ok s h -> at_slot s i c -> c_handle c <> h.
  Proof. intros (_ & _ & _ & H) Hc. apply H. eapply nth_error_In; eauto. Qed.
  Lemma gen_not_default s h : gen_ok s h -> h <> repeat 0%N 16.
  Proof. intros (H & _). exact H. Qed.

  Lemma unique_put s i c :
    unique_handles s ->
    (c_state c = Active -> c_handle c <> repeat 0%N 16 ->
     forall j d, j <> i -> at_slot s j d -> c_state d = Active -> c_handle d <> c_handle c) ->
    unique_handles (put_ctx s i c).
  Proof.
    intros U H a b x y Hx Hy Ax Ay Eh Nd.
    apply at_put_iff in Hx as [(Ea & _ & ->)|[Hne Hx]]; apply at_put_iff in Hy as [(Eb & _ & ->)|[Hne' Hy]].
    - congruence.
    - exfalso. subst a. apply (H Ax Nd b y); auto.
    - exfalso. subst b. rewrite Eh in Nd. apply (H Ay Nd a x); auto.
    - eapply U; eauto.
  Qed.

  Lemma pruned_back s t s' :
    wf cf s -> live_at s t -> pruned cf s (doomed s t) s' ->
    forall i c', at_slot s' i c' -> live c' ->
      exists c, at_slot s i c /\ same_but_children c c' /\ ~ doomed s t i.
  Proof.
    intros W Lt (_ & Hlen & Hp) i c' Hc' Lc'.
    pose proof (at_lt _ _ _ Hc') as Hlt. rewrite Hlen in Hlt. apply nth_error_ex in Hlt as (c & Hc).
    destruct (Hp i c Hc) as (c2 & H2 & K1 & K2). rewrite (at_det _ _ _ _ Hc' H2) in *.
    destruct (doomed_dec cf Hcf s t (wf_forest _ _ W) Lt i) as [Di|Di].
    - exfalso. apply Lc'. apply K1; exact Di.
    - exists c. split; [exact Hc|]. split; [apply K2; exact Di|exact Di].
  Qed.

  Lemma change_unique HF (nr : Prop) OI s s' :
    nr -> wf cf s -> change cf HF nr OI s s' -> unique_handles s -> unique_handles s'.
  Proof.
    intros Hnr W H U.
    assert (UI : unique_handles (set_init true s)) by exact U.
    destruct H.
    - apply unique_put; [exact UI|]. cbn. unfold default_handle. congruence.
    - apply unique_put; [exact U|]. cbn. intros _ _ j d _ Hd _. eapply gen_not_stored; eauto.
    - apply unique_put; [exact U|]. cbn. intros _ _ j d _ Hd _. eapply gen_not_stored; eauto.
    - apply unique_put; [exact U|]. cbn. unfold default_handle. congruence.
    - apply unique_put; [exact U|]. cbn. intros A N j d1 Hne Hd Ad Eh. apply Hne.
      apply (U j idx d1 c); auto. rewrite Eh; exact N.
    - apply unique_put; [exact U|]. cbn. discriminate.
    - assert (Hne : parent <> child).
      { intros <-. destruct H1 as [(x0 & Hx & Hi) _]. rewrite (at_det _ _ _ _ Hx H) in Hi. congruence. }
      assert (Kpc : c_state pc' = Active -> retire = false).
      { unfold parent_after in H2. destruct retire; [subst pc'; cbn; discriminate|reflexivity]. }
      assert (Fr : c_state pc' = Active -> c_handle pc' <> repeat 0%N 16 ->
                   forall j d, j <> parent -> at_slot s j d -> c_state d = Active ->
                               c_handle d <> c_handle pc').
      { intros A N j d0 Hj Hd0 Ad. specialize (Kpc A). subst retire. cbn in H2.
        destruct H2 as [[Hh ->]|(_ & h' & Hg & ->)].
        - exfalso; apply N. exact Hh.
        - cbn. eapply gen_not_stored; eauto. }
      apply unique_put.
      + apply unique_put; [exact U|]. cbn. intros _ N j d0 Hj Hd0 Ad.
        destruct H4 as [[Hh _]|(Hg & _ & _)]; [exfalso; apply N; exact Hh|].
        eapply gen_not_stored; eauto.
      + cbn. intros A N j d0 Hj Hd0 Ad.
        apply at_put_iff in Hd0 as [(-> & _ & ->)|[_ Hd0]]; [|eauto].
        cbn. destruct H4 as [[-> _]|(_ & _ & H4)].
        * intros X. apply N. rewrite <- X. reflexivity.
        * apply H4; auto.
    - intros i j x y Hx Hy Ax Ay Eh Nd.
      destruct (pruned_back s t s' W H H1 i x Hx) as (x0 & Hx0 & Sx & _); [unfold live; congruence|].
      destruct (pruned_back s t s' W H H1 j y Hy) as (y0 & Hy0 & Sy & _); [unfold live; congruence|].
      unfold same_but_children in *.
      eapply (U i j x0 y0); eauto; intuition congruence.
  Qed.

  Theorem handles_unique (E : env -> Prop) G l s :
    (forall e, E e -> no_repeat (e_crypto e)) -> history cf E G l s -> unique_handles s.
  Proof.
    intros HE H. apply (history_inv cf Hcf E G anywhere unique_handles) in H; try tauto.
    - intros s0 cmd loc _ f _. right; exact Logic.I.
    - intros sup fl i j c d Hc _ Ac. apply (new_slot cf sup fl) in Hc as [_ ->]. discriminate.
    - intros sup fl loc ty d m. unfold auto_state. apply unique_put.
      + intros i j c x Hc _ Ac. apply (new_slot cf sup fl) in Hc as [_ ->]. discriminate.
      + cbn. unfold default_handle. congruence.
    - intros e s0 s' He W U Hch. exact (change_unique _ _ _ _ _ (HE e He) W Hch U).
  Qed.

  (** ** A default context is alone in its locality *)
  Definition alone (loc : N) (s : state) : Prop :=
    forall i j c d, at_slot s i c -> at_slot s j d -> c_state c = Active -> c_state d = Active ->
      c_locality c = loc -> c_locality d = loc -> c_handle c = repeat 0%N 16 -> i = j.

  (** Contexts of locality [loc] are only initialised while it has no others. *)
  Definition empty_first (loc : N) (s : state) (l : N) : Prop :=
    l = loc -> forall i c, at_slot s i c -> c_state c = Active -> c_locality c <> loc.

  Lemma alone_put loc s i c :
    alone loc s ->
    (c_state c = Active -> c_locality c = loc ->
     forall j d, j <> i -> at_slot s j d -> c_state d = Active -> c_locality d = loc ->
                 c_handle c <> repeat 0%N 16 /\ c_handle d <> repeat 0%N 16) ->
    alone loc (put_ctx s i c).
  Proof.
    intros U H a b x y Hx Hy Ax Ay Lx Ly Nd.
    apply at_put_iff in Hx as [(Ea & _ & ->)|[Hne Hx]]; apply at_put_iff in Hy as [(Eb & _ & ->)|[Hne' Hy]].
    - congruence.
    - exfalso. subst a. destruct (H Ax Lx b y); auto.
    - exfalso. subst b. destruct (H Ay Ly a x); auto.
    - eapply U; eauto.
  Qed.

  Lemma first_exists (Q : nat -> Prop) :
    (forall i, Q i \/ ~ Q i) -> forall n, Q n -> exists i, first_slot Q i.
  Proof.
    intros Dec n. induction n as [n IH] using lt_wf_ind. intros Hn.
    assert (D : (exists j, j < n /\ Q j) \/ forall j, j < n -> ~ Q j).
    { clear - Dec. induction n as [|n [(j & Hj & Qj)|IHn]].
      - right; intros; lia.
      - left; exists j; split; [lia|exact Qj].
      - destruct (Dec n) as [Hq|Hq]; [left; exists n; auto|].
        right. intros j Hj. destruct (Nat.eq_dec j n) as [->|]; [exact Hq|apply IHn; lia]. }
    destruct D as [(j & Hj & Qj)|D]; [apply (IH j); auto|exists n; split; auto].
  Qed.

  Lemma names_dec s h loc i : names s h loc i \/ ~ names s h loc i.
  Proof.
    unfold names, at_slot. destruct (nth_error (st_contexts s) i) as [c|].
    2:{ right. intros (c & X & _); discriminate. }
    destruct (ctx_state_eqb (c_state c) Active) eqn:A.
    2:{ right. intros (c0 & X & Y & _). inversion X; subst c0. rewrite Y in A. discriminate. }
    apply ctx_state_eqb_eq in A.
    destruct (N.eq_dec (c_locality c) loc) as [L|L].
    2:{ right. intros (c0 & X & _ & Y & _). inversion X; subst c0. contradiction. }
    destruct (list_eq_dec N.eq_dec (c_handle c) h) as [Hh|Hh].
    2:{ right. intros (c0 & X & _ & _ & Y). inversion X; subst c0. contradiction. }
    left. eauto.
  Qed.

  Lemma change_alone loc HF (nr : Prop) s s' :
    wf cf s -> change cf HF nr (empty_first loc) s s' -> alone loc s -> alone loc s'.
  Proof.
    intros W H U.
    assert (UI : alone loc (set_init true s)) by exact U.
    destruct H.
    - apply alone_put; [exact UI|]. cbn [c_state c_handle c_locality set_handle set_tci set_state init_context]. intros _ Hl j d _ Hd Ad Ld. exfalso. eapply H2; eauto.
    - apply alone_put; [exact U|]. cbn [c_state c_handle c_locality set_handle set_tci set_state init_context]. intros _ Hl j d _ Hd Ad Ld. exfalso. eapply H3; eauto.
    - apply alone_put; [exact U|]. cbn [c_state c_handle c_locality set_handle set_tci set_state init_context]. intros A L j d1 Hne Hd Ad Ld. split; [eapply gen_not_default; eauto|].
      intros X. apply Hne. apply (U j idx d1 c); auto.
    - apply alone_put; [exact U|]. cbn [c_state c_handle c_locality set_handle set_tci set_state init_context]. intros A L j d1 Hne Hd Ad Ld. exfalso. apply Hne. apply (H2 j d1); auto; [congruence|].
      intros X. apply (H1 j). exists d1. repeat split; auto. congruence.
    - apply alone_put; [exact U|]. cbn [c_state c_handle c_locality set_handle set_tci set_state init_context]. intros A L j d' Hne Hd Ad Ld. split; intros X; apply Hne; [symmetry|].
      + apply (U idx j c d'); auto.
      + apply (U j idx d' c); auto.
    - apply alone_put; [exact U|]. cbn. discriminate.
    - assert (Hne : parent <> child).
      { intros <-. destruct H1 as [(x' & Hx & Hi) _]. rewrite (at_det _ _ _ _ Hx H) in Hi. congruence. }
      assert (Kpc : c_state pc' = Active -> retire = false).
      { unfold parent_after in H2. destruct retire; [subst pc'; cbn; discriminate|reflexivity]. }
      assert (Lp : c_locality pc' = c_locality pc).
      { unfold parent_after in H2. destruct retire; [subst pc'; reflexivity|].
        destruct H2 as [[_ ->]|(_ & h' & _ & ->)]; reflexivity. }
      assert (DP : c_state pc' = Active -> c_handle pc' = repeat 0%N 16 -> c_handle pc = repeat 0%N 16).
      { intros A X. specialize (Kpc A). subst retire. cbn in H2. destruct H2 as [[Y ->]|(_ & h' & Hg & ->)]; [exact X|].
        exfalso. eapply gen_not_default; eauto. }
      (* a default context of the target locality is the parent, which retires *)
      assert (TD : gen_ok s h -> (forall i, first_slot (names s default_handle target) i -> i = parent /\ retire = true) ->
                   forall j d0, at_slot s j d0 -> c_state d0 = Active -> c_locality d0 = target ->
                     target = loc -> c_handle d0 = repeat 0%N 16 -> j = parent /\ retire = true).
      { intros Hg Hf j d0 Hj Aj Lj Tl Hh. subst target.
        destruct (first_exists (names s default_handle loc)) with (n := j) as (k & Hk).
        - intros; apply names_dec.
        - exists d0. repeat split; auto; congruence.
        - destruct (Hf k) as [Kp R]; [congruence|]. split; [|exact R]. subst k.
          destruct Hk as [(ck & Hck & Ak & Lk & _) _]. apply (U j parent d0 ck); auto. }
      (* no default meets the child *)
      assert (CD : target = loc -> forall j d0, at_slot s j d0 -> c_state d0 = Active -> c_locality d0 = target ->
                     h = default_handle \/ c_handle d0 = repeat 0%N 16 -> j = parent /\ retire = true).
      { intros Tl j d0 Hj Aj Lj Hor. destruct H4 as [[Hh H4]|(Hg & H4 & _)].
        - destruct (H4 j d0 Hj Aj Lj) as (? & ? & _). auto.
        - destruct Hor as [Hh|Hh]; [exfalso; eapply gen_not_default; eauto|].
          eapply TD; eauto. }
      intros a b y z Hy Hz Ay Az Ly Lz Nd.
      apply at_put_iff in Hy as [(Ea & _ & ->)|[Na Hy]]; [|apply at_put_iff in Hy as [(Ea & _ & ->)|[Na2 Hy]]];
      (apply at_put_iff in Hz as [(Eb & _ & ->)|[Nb Hz]]; [|apply at_put_iff in Hz as [(Eb & _ & ->)|[Nb2 Hz]]]);
      cbn [c_state c_handle c_locality set_children] in *; try congruence.
      + (* parent, child *) exfalso. specialize (Kpc Ay). destruct (CD Lz parent pc H H0) as [_ X]; [congruence|right; auto|congruence].
      + (* parent, other *) exfalso. apply Nb. apply (U parent b pc z); auto; congruence.
      + (* child, parent *) exfalso. specialize (Kpc Az). destruct (CD Ly parent pc H H0) as [_ X]; [congruence|left; exact Nd|congruence].
      + (* child, other *) exfalso. destruct (CD Ly b z) as [X _]; auto; congruence.
      + (* other, parent *) exfalso. apply Na. symmetry. apply (U a parent y pc); auto; congruence.
      + (* other, child *) exfalso. destruct (CD Lz a y) as [X _]; auto; congruence.
      + eapply U; eauto.
    - intros i j x y Hx Hy Ax Ay Lx Ly Nd.
      destruct (pruned_back s t s' W H H1 i x Hx) as (x0 & Hx0 & Sx & _); [unfold live; congruence|].
      destruct (pruned_back s t s' W H H1 j y Hy) as (y0 & Hy0 & Sy & _); [unfold live; congruence|].
      unfold same_but_children in *.
      eapply (U i j x0 y0); eauto; intuition congruence.
  Qed.

  (** InitializeContext is only issued in locality [loc] while no context is
      active there (a second default initialisation, which always fails, may be
      issued at any time). *)
  Definition init_when_empty (loc : N) (s : state) (cmd : command) (l : N) : Prop :=
    forall f, cmd = CmdInitCtx f -> l = loc ->
      (N.testbit f 30 = true /\ st_init s = true) \/
      forall i c, at_slot s i c -> c_state c = Active -> c_locality c <> loc.

  Theorem default_alone loc E l s :
    history cf E (init_when_empty loc) l s -> alone loc s.
  Proof.
    intros H.
    assert (N0 : forall sup fl, alone loc (state_new cf sup fl)).
    { intros sup fl i j c d Hc _ Ac. apply (new_slot cf sup fl) in Hc as [_ ->]. discriminate. }
    apply (history_inv cf Hcf E (init_when_empty loc) (empty_first loc) (alone loc)) in H; try tauto.
    - intros s0 cmd l0 HA f Ef. destruct (N.eq_dec l0 loc) as [->|Hne].
      + destruct (HA f Ef eq_refl) as [X|X]; [left; exact X|right]. intros _. exact X.
      + right. intros X. contradiction.
    - intros sup fl loc0 ty d m. unfold auto_state. apply alone_put; [exact (N0 sup fl)|].
      intros _ _ j d0 _ Hd Ad. apply (new_slot cf sup fl) in Hd as [_ ->]. discriminate.
    - intros e s0 s' He W U Hch. exact (change_alone loc _ _ _ _ W Hch U).
  Qed.

  (** ** Globals *)
  Lemma change_globals HF (nr : Prop) OI s s' :
    change cf HF nr OI s s' ->
    st_marker s' = st_marker s /\ st_version s' = st_version s /\
    st_support s' = st_support s /\ st_flags s' = st_flags s /\ st_reserved s' = st_reserved s /\
    (st_init s = true -> st_init s' = true).
  Proof.
    destruct 1; cbn; auto 10. destruct H1 as ((G1 & G2 & G3 & G4 & G5 & G6) & _).
    rewrite G1, G2, G3, G4, G5, G6. auto 10.
  Qed.

  Lemma changes_globals HF (nr : Prop) OI s s' :
    changes cf HF nr OI s s' ->
    st_marker s' = st_marker s /\ st_version s' = st_version s /\
    st_support s' = st_support s /\ st_flags s' = st_flags s /\ st_reserved s' = st_reserved s /\
    (st_init s = true -> st_init s' = true).
  Proof.
    induction 1 as [x y H|x|x y z _ (A1 & A2 & A3 & A4 & A5 & A6) _ (B1 & B2 & B3 & B4 & B5 & B6)].
    - eapply change_globals; eauto.
    - auto 10.
    - rewrite B1, B2, B3, B4, B5. auto 10.
  Qed.

  Lemma any_allowed s cmd loc : init_allowed anywhere s cmd loc.
  Proof. intros f _. right. exact Logic.I. Qed.

  Theorem executes_wf e cmd loc s r s' :
    wf cf s -> command_wf cf cmd -> u32 loc -> executes cf e cmd loc s r s' -> wf cf s'.
  Proof.
    intros W Wc Wl H. apply (executes_changes cf e Hcf anywhere) in H; auto using any_allowed.
    apply changes_wf in H; auto.
  Qed.
End Reachable.
